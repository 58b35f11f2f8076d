{"id": "C01", "title": "Published rounding is nearest, ties up, monotone and idempotent", "statement": "Every statistic is published through one rounding routine. For every number and every number of decimals d, the rounded value is a whole multiple of 10^-d, is less than or equal to the input plus half a unit (0.5*10^-d) and strictly greater than the input minus half a unit (so it is a nearest multiple and exact ties go up); rounding preserves order, leaves already rounded numbers unchanged, and keeps a value inside any interval whose ends are multiples of 10^-d.", "quantifier": "every rational input and every number of decimals >= 0", "why_tests_cant": "The claim ranges over all numbers; tests sample a handful and ties/negatives are easy to miss.", "anchors": ["metcalcpy/util/utils.py:round_half_up"]}
{"id": "C02", "title": "Column totals skip missing cells and only missing cells", "statement": "The total of a named column is the sum of its non-missing cells; it is undefined (None) exactly when the column is absent or contains no non-missing cell (including the case of no rows). Reordering rows never changes it, and splitting the rows in two parts splits the total. With missing-removal switched off, one missing cell makes the total undefined.", "quantifier": "every table (any rows, any columns, any pattern of missing cells) and every column name", "why_tests_cant": "Missing-data patterns are exponential in table size.", "anchors": ["metcalcpy/util/utils.py:sum_column_data_by_name", "metcalcpy/util/utils.py:column_data_by_name"]}
{"id": "C03", "title": "Row filters keep exactly the matching rows, in order", "statement": "Filtering a table by a dictionary of column=value conditions returns exactly the rows satisfying every condition, in their original order, independent of the order of the conditions; the row count function returns how many there are; a condition on an absent column is reported (number 0 from the filter; an uncaught AttributeError from the row counter) rather than ignored.", "quantifier": "every table and every list of conditions", "why_tests_cant": "All condition sets and tables cannot be enumerated; the absent-column branch differs between the two entry points.", "anchors": ["metcalcpy/util/utils.py:column_data_by_name_value", "metcalcpy/util/utils.py:nrow_column_data_by_name_value"]}
{"id": "C04", "title": "Contingency-table scores equal their textbook definition on the pooled counts", "statement": "For every collection of contingency-table rows whose counts are present, each of ACC, FBIAS, FMEAN, PODY, POFD, PODN, FAR, CSI, GSS, HSS, ORSS, BASER and the count totals equals the textbook formula evaluated on the four counts pooled over all rows, rounded to 7 decimals; it is None exactly when a needed count is entirely missing or the textbook denominator is zero.", "quantifier": "every table of contingency counts, including zero margins and missing cells", "why_tests_cant": "Zero margins and missing-cell combinations are many; None-versus-number must be decided for all of them.", "anchors": ["metcalcpy/util/ctc_statistics.py:calculate_acc", "metcalcpy/util/ctc_statistics.py:calculate_fbias", "metcalcpy/util/ctc_statistics.py:calculate_fmean", "metcalcpy/util/ctc_statistics.py:calculate_pody", "metcalcpy/util/ctc_statistics.py:calculate_pofd", "metcalcpy/util/ctc_statistics.py:calculate_podn", "metcalcpy/util/ctc_statistics.py:calculate_far", "metcalcpy/util/ctc_statistics.py:calculate_csi", "metcalcpy/util/ctc_statistics.py:calculate_gss", "metcalcpy/util/ctc_statistics.py:calculate_hss", "metcalcpy/util/ctc_statistics.py:calculate_orss", "metcalcpy/util/ctc_statistics.py:calculate_baser"]}
{"id": "C05", "title": "Contingency-table scores stay in their published range", "statement": "Whenever the counts are non-negative and the total equals the sum of the four counts, every returned ACC, PODY, POFD, PODN, FAR, CSI, BASER, FMEAN lies in [0,1], HK, HSS and ORSS in [-1,1], GSS in [-1/3 (to rounding),1], FBIAS and ODDS are non-negative, and CSI <= PODY.", "quantifier": "every table of non-negative contingency counts", "why_tests_cant": "Range claims are universally quantified over counts and interact with rounding.", "anchors": ["metcalcpy/util/ctc_statistics.py:calculate_gss", "metcalcpy/util/ctc_statistics.py:calculate_hk", "metcalcpy/util/ctc_statistics.py:calculate_hss", "metcalcpy/util/ctc_statistics.py:calculate_orss", "metcalcpy/util/ctc_statistics.py:calculate_odds"]}
{"id": "C06", "title": "Contingency scores do not depend on row order or on how cases are split over rows", "statement": "Permuting the rows, or replacing two rows by one row with the summed counts, never changes any contingency-table score.", "quantifier": "every table and every permutation / merge of its rows", "why_tests_cant": "Order and partition independence quantifies over all permutations and partitions.", "anchors": ["metcalcpy/util/ctc_statistics.py", "metcalcpy/util/utils.py:sum_column_data_by_name"]}
{"id": "C07", "title": "Perfect and worst forecasts get the extreme scores", "statement": "A forecast without misses and false alarms (and with both events and non-events) scores PODY=PODN=CSI=GSS=HSS=HK=ORSS=ACC=1 and FAR=POFD=0; a forecast that is always wrong scores PODY=PODN=CSI=ACC=0, FAR=POFD=1, HK=-1, ORSS=-1. PODN and POFD always add up to 1 within one rounding unit.", "quantifier": "every pooled table of that shape", "why_tests_cant": "Must hold for all counts.", "anchors": ["metcalcpy/util/ctc_statistics.py"]}
{"id": "C08", "title": "Contingency scores never raise", "statement": "When the columns exist, PODY, POFD, PODN, FAR, CSI, ACC, FBIAS, FMEAN, GSS, HSS, HK, ODDS, ORSS return a number or None for every table - no exception escapes - and BASER does too, but the plain totals (ctc total, oy, on, fy, fn...) raise TypeError exactly when the column is missing or empty, contrary to their documented None.", "quantifier": "every table, with or without the needed columns", "why_tests_cant": "Exceptional paths over all missing-data patterns.", "anchors": ["metcalcpy/util/ctc_statistics.py:calculate_ctc_total", "metcalcpy/util/ctc_statistics.py:calculate_baser"]}
{"id": "C09", "title": "Economic value: bounds and value at the base rate", "statement": "For every contingency table for which it is defined and every cost/loss ratio strictly between 0 and 1, the economic value is at most 1 (and at most the hit rate above the base rate, at most 1-F below it), is continuous at the base rate where it equals H-F = vmax, is increasing in the cost/loss ratio below the base rate and decreasing above it; the returned cost/loss points are sorted and are the requested ones plus the base rate when asked.", "quantifier": "every 2x2 table with non-zero margins, every list of cost/loss ratios in (0,1)", "why_tests_cant": "Optimality at the base rate is a statement about a continuum of ratios.", "anchors": ["metcalcpy/util/ctc_statistics.py:calculate_economic_value"]}
{"id": "C10", "title": "Partial-sums (SL1L2) aggregation equals pooling the raw pairs", "statement": "If each row holds the means of f, o, f*o, f*f, o*o over its own matched pairs, multiplied by its pair count as the aggregation stage does, then each aggregated statistic (FBAR, OBAR, FOBAR, FFBAR, OOBAR, MAE, MBIAS, ME, ME2, MSE, RMSE, FSTDEV, OSTDEV, PR_CORR, BCMSE, BCRMSE, MSESS, SI) equals (up to the published rounding) the same statistic computed from all raw pairs pooled together, however the pairs were divided over the rows; FE and ESTDEV do not, shown by counterexample.", "quantifier": "every list of raw pairs and every partition of it into non-empty rows", "why_tests_cant": "All partitions of all samples.", "anchors": ["metcalcpy/util/sl1l2_statistics.py", "metcalcpy/agg_stat.py:_prepare_sl1l2_data"]}
{"id": "C11", "title": "Second-moment statistics of genuine data are non-negative and correlations are within [-1,1]", "statement": "For partial sums that come from genuine matched pairs, MSE >= 0, the forecast and observation variances are non-negative so the standard deviations are defined for more than one pair, and the (unrounded) Pearson correlation lies in [-1,1] (Cauchy-Schwarz).", "quantifier": "every list of raw pairs", "why_tests_cant": "Inequalities over all real data sets.", "anchors": ["metcalcpy/util/sl1l2_statistics.py:calculate_pr_corr", "metcalcpy/util/sl1l2_statistics.py:calculate_mse", "metcalcpy/util/sl1l2_statistics.py:calculate_fstdev"]}
{"id": "C12", "title": "Event equalization keeps exactly the events present in every series", "statement": "After equalization a row is kept iff its event key (valid time, lead, and the independent variable where requested) occurs in the data of every combination of series and fixed values; rows keep their order and content.", "quantifier": "every table, every list of series variables with their values, every list of fixed variables", "why_tests_cant": "All data sets and all combinations of series values.", "anchors": ["metcalcpy/event_equalize.py:event_equalize"]}
{"id": "C13", "title": "Event equalization is idempotent and balanced", "statement": "Equalizing an already equalized table changes nothing; after equalization all series combinations have the same set of events; the result does not depend on the order in which series values are listed.", "quantifier": "every table and series specification", "why_tests_cant": "All data sets.", "anchors": ["metcalcpy/event_equalize.py:event_equalize"]}
{"id": "C14", "title": "Equalization against an external case list", "statement": "event_equalize_against_values keeps exactly the rows whose valid-time/lead key is in the given list, in order; returns an empty table when the valid-time column is missing or nothing matches; a missing lead column is a KeyError and an existing key column a ValueError.", "quantifier": "every table and case list", "why_tests_cant": "All case lists.", "anchors": ["metcalcpy/event_equalize_against_values.py"]}
{"id": "C15", "title": "Permutations are the complete duplicate-free cartesian product", "statement": "The permutation lists used to enumerate series contain every combination with one value per field, each exactly once (when the values are distinct), with the first field varying fastest for the METviewer order and the last field varying fastest for the plain product; fields without values are skipped in the dictionary form.", "quantifier": "every list/dictionary of value lists", "why_tests_cant": "Unbounded number of fields and values.", "anchors": ["metcalcpy/util/utils.py:create_permutations_mv", "metcalcpy/util/utils.py:create_permutations"]}
{"id": "C16", "title": "Derived-curve arithmetic", "statement": "Derived values (DIFF, RATIO, SS, SINGLE) are element-wise, have the length of the inputs, and are undefined exactly when an input is undefined, contains an undefined element, lengths differ, a divisor is zero or the operation is unknown; DIFF is antisymmetric; RATIO of a series with itself is all ones, SS all zeros.", "quantifier": "every pair of series and every operation name", "why_tests_cant": "All series.", "anchors": ["metcalcpy/util/utils.py:calc_derived_curve_value"]}
{"id": "C17", "title": "Derived names are recognised as derived", "statement": "For every pair of series names and every supported operation, the generated derived-series name is recognised as a derived point; and a point none of whose components starts with an operation followed by '(' is not.", "quantifier": "all strings", "why_tests_cant": "All strings.", "anchors": ["metcalcpy/util/utils.py:get_derived_curve_name", "metcalcpy/util/utils.py:is_derived_point"]}
{"id": "C18", "title": "Sign convention of the scorecard significance", "statement": "The adjusted significance is None for statistics without perfect score, is negated exactly when the first series is farther from the perfect score than the second, and otherwise unchanged; in particular swapping the two series when they are not equally far flips exactly one of the two signs.", "quantifier": "every statistic name, pair of means and significance", "why_tests_cant": "All numbers and names.", "anchors": ["metcalcpy/util/utils.py:perfect_score_adjustment"]}
{"id": "C19", "title": "TOST outcome classification", "statement": "For every pair of p-values and alpha the combined outcome agrees with the two individual tests, except on the boundary: when the t-test p-value equals alpha and the TOST p-value exceeds it the function fails with an unbound variable, and a p-value of exactly zero is reported as 'none'. The confidence intervals, bounds, degrees of freedom, plot limits and, where there is a verdict, the t and p values are those of the test, to 7 decimals.", "quantifier": "all p-values in [0,1] and alpha in (0,1)", "why_tests_cant": "Boundary equalities have measure zero under sampling.", "anchors": ["metcalcpy/util/utils.py:tost_paired"]}
{"id": "C20", "title": "Longitude conversion", "statement": "The converted longitudes lie in [-180,180), are sorted ascending, are congruent to the inputs modulo 360 as a multiset (no value lost or invented), and converting twice changes nothing; index-reporting conversion returns a permutation that reproduces the sorted values.", "quantifier": "every list of longitudes", "why_tests_cant": "All lists and all numbers.", "anchors": ["metcalcpy/util/utils.py:convert_lon_360_to_180", "metcalcpy/util/utils.py:convert_lons_indices"]}
{"id": "C21", "title": "Circular-block bootstrap indices", "statement": "Every bootstrap resample has exactly as many cases as the data, every drawn position is valid, and positions inside a block are consecutive modulo the number of cases.", "quantifier": "every data length, block length and sequence of random block starts", "why_tests_cant": "All random draws.", "anchors": ["metcalcpy/bootstrap.py:_bootstrap_sim_cbb", "metcalcpy/bootstrap.py:_generate_distributions_cbb"]}
{"id": "C22", "title": "Bootstrap confidence limits are ordered and come from the distribution", "statement": "The percentile limits are the alpha/2 and 1-alpha/2 quantiles of the resampled statistics that are not missing; for both methods the lower limit does not exceed the upper one; percentile limits lie between resampled values, widen as alpha shrinks and do not depend on the order of the resamples; a constant distribution or an undefined statistic has no limits. Deviations: a distribution with only missing values raises, one missing value makes the pivotal method raise, economic value curves get limits only when their own values are partly undefined, and the sign of a significant result is that of the statistic even when the statistic lies outside its interval.", "quantifier": "every distribution, statistic and alpha", "why_tests_cant": "limits for any distribution size and any alpha cannot be enumerated; the interpolation is a continuum property", "anchors": ["metcalcpy/bootstrap.py:_get_confidence_interval_and_value", "metcalcpy/bootstrap.py:_get_confidence_interval_and_value_eclv", "metcalcpy/bootstrap.py:BootstrapResults"]}
{"id": "C23", "title": "Bootstrap batching runs the requested number of iterations", "statement": "For every number of iterations and batch size the batches cover exactly the requested number of iterations when one thread is used; with several threads the number of iterations is rounded up to a multiple of the thread count.", "quantifier": "all iteration counts, batch sizes, thread counts", "why_tests_cant": "All combinations.", "anchors": ["metcalcpy/bootstrap.py:bootstrap_and_value"]}
{"id": "C24", "title": "MODE object ratios: ranges and complementarity", "statement": "For every table of MODE objects with 0/1 flags, each documented count ratio that is a part over its whole lies in [0,1], complementary parts add up to one (within rounding), inverse ratios multiply to one, and hits, misses and false alarms account for all simple objects; the ratios whose code disagrees with their documentation are identified with concrete counterexamples.", "quantifier": "every table of objects", "why_tests_cant": "All object populations.", "anchors": ["metcalcpy/util/mode_ratio_statistics.py"]}
{"id": "C25", "title": "MODE area ratios and 2-D/3-D variants", "statement": "The same for area-weighted ratios; the 2-D variants equal the base statistic on the 2-D objects only; the 3-D volume variants are always undefined because the renamed column list defeats the column lookup.", "quantifier": "every table of objects", "why_tests_cant": "All object populations.", "anchors": ["metcalcpy/util/mode_arearat_statistics.py", "metcalcpy/util/mode_2d_arearat_statistics.py", "metcalcpy/util/mode_3d_volrat_statistics.py"]}
{"id": "C26", "title": "ROC curve of probability forecasts", "statement": "For every probability-table with non-negative counts, the ROC points computed from it are monotone in the threshold, lie in the unit square, and the reported area under the curve lies in [0,1].", "quantifier": "every probability table", "why_tests_cant": "All tables.", "anchors": ["metcalcpy/util/pstd_statistics.py:_calc_pct_roc", "metcalcpy/util/pstd_statistics.py:calculate_pstd_roc_auc"]}
{"id": "C27", "title": "Brier decomposition", "statement": "Reliability, resolution and uncertainty are non-negative, uncertainty is at most 1/4, and reliability - resolution + uncertainty equals the mean squared error of the binned probabilities.", "quantifier": "every probability table", "why_tests_cant": "Algebraic identity over all tables.", "anchors": ["metcalcpy/util/pstd_statistics.py:_calc_common_stats"]}
{"id": "C28", "title": "Fractions-skill scores", "statement": "For aggregated neighbourhood lines AFSS of non-negative rates lies in [0,1], FSS never exceeds 1, UFSS lies in [1/2,1]; FBS, the forecast rate and, when no line is perfect, FSS are those of all neighbourhoods pooled together. The observed rate, and AFSS and UFSS with it, is not weighted by the line totals, and a perfect line loses its share of the reference; counterexamples are given.", "quantifier": "every table of neighbourhood lines", "why_tests_cant": "All tables and all ways of grouping neighbourhoods into lines.", "anchors": ["metcalcpy/util/nbrcnt_statistics.py"]}
{"id": "C29", "title": "Piecewise-linear functions", "statement": "A piecewise-linear function reproduces its node values, never leaves the range spanned by its nodes and the two outside values, is monotone between nodes, and returns the left/right value outside the domain.", "quantifier": "every strictly increasing node list and every argument", "why_tests_cant": "Continuum of arguments.", "anchors": ["metcalcpy/piecewise_linear.py"]}
{"id": "C30", "title": "Forecast decision difficulty index is bounded", "statement": "For positive means and spreads the normalised variance term lies in [0,1], the threshold term in [0,1] (bounds depending on the under-forecast factor), and the index in [0, taper maximum].", "quantifier": "every ensemble", "why_tests_cant": "All ensembles.", "anchors": ["metcalcpy/calc_difficulty_index.py"]}
{"id": "C31", "title": "Scorecard significance classes", "statement": "For two samples of the same length (two or more cases, none missing) the scorecard class is the signed level (0, .95, .99, 1) of the advantage of the first model measured in half widths of the 95% interval (all rounded as documented); signed levels are odd and monotone, so exchanging the models negates the class unless a bias-like statistic has means of equal size (counterexample). One value near -100 has no class (counterexample), and error measures other than RMSE/RMSVE are oriented the wrong way (counterexample). Samples of different lengths, single cases and missing values behave as stated. The t-test variant gives a confidence in [0,1) whose sign is negative exactly if the first mean is farther from the perfect score.", "quantifier": "every pair of samples, number of days and statistic name; every symmetric distribution", "why_tests_cant": "All samples and boundary values.", "anchors": ["metcalcpy/scorecard.py:_calculate_diff_sig_emc", "metcalcpy/scorecard.py:_calculate_diff_sig_ncar"]}
{"id": "C32", "title": "Vertical interpolation of a column", "statement": "For every column whose present levels rise, a target strictly between two neighbouring present levels below the top layer gets the linear interpolation of these two levels (hence linear fields are reproduced and the value lies between both); beyond the ends it gets the end value; elsewhere (below missing levels) it is missing. Deviations, each for all columns: in the top layer the upper level is left out, exactly on a level the result is missing, a single level has values above it only, and a column listed from top to bottom gives the sum of both end values for every inner target. Units only scale the heights, targets are treated independently, an empty column raises IndexError.", "quantifier": "every column (with missing levels and values), unit factor and target height", "why_tests_cant": "Continuum of heights.", "anchors": ["metcalcpy/vertical_interp.py:vertical_interp"]}
{"id": "C33", "title": "Runs test counts and invariance", "statement": "With values on both sides of the threshold (median or mean of the present values) and at least three values different from it, the runs test reports the number of runs, its expectation and variance under randomness and the normalised statistic, whatever the alternative; otherwise it raises ZeroDivisionError. The number of runs is at least 2, at most the number of used values and at most one more than twice the smaller side. Reversing, shifting or multiplying the series by a non-zero number (also negative) changes nothing. The one-sided p-values add up to 1. The documented key 'mean_value' is missing from a result without a test: a counterexample is given.", "quantifier": "every series with missing values, every alternative, threshold and normal distribution function", "why_tests_cant": "All series and all rescalings.", "anchors": ["metcalcpy/util/wald_wolfowitz_runs_test.py"]}
{"id": "C34", "title": "Autocovariance and autocorrelation", "statement": "The autocovariance and autocorrelation functions return for each lag the textbook value over pairs of present values; the lag-0 autocorrelation is 1, and without missing values every lag's magnitude is at most 1; shifting, scaling and reversing the series do not change the autocorrelations; constant series raise ZeroDivisionError. With missing values an autocorrelation can exceed 1 (counterexample). The lag-1 least-squares coefficient equals the least-squares slope only when the first or last value is the mean or the last one is one below it, so it depends on the unit (counterexample).", "quantifier": "every series with missing values and every lag", "why_tests_cant": "All series and lags.", "anchors": ["metcalcpy/util/correlation.py:acf", "metcalcpy/util/utils.py:autocor_coef"]}
{"id": "C35", "title": "Anomaly correlations pool and stay within [-1,1]", "statement": "Aggregated scalar and vector anomaly correlations are those of all anomaly pairs together, however they were divided over lines, and lie in [-1,1]; the raw and vector-continuous versions are clamped to [-1,1] on every table, the scalar one only from above. VCNT_ANOM_CORR mixes raw and mean products: a counterexample is given.", "quantifier": "every list of anomaly pairs and every grouping; every table for the clamps", "why_tests_cant": "All groupings and tables.", "anchors": ["metcalcpy/util/sal1l2_statistics.py", "metcalcpy/util/val1l2_statistics.py", "metcalcpy/util/vcnt_statistics.py"]}
{"id": "C36", "title": "Weighted ensemble averages stay within the data", "statement": "Aggregated ECNT and RPS scores are the total-weighted means of the lines (roots of weighted mean squares for RMSE and spread, one minus the ratio of weighted means for skill, member-count weighted means for the conditional errors) and lie between the smallest and largest per-line value. SPREAD_PLUS_OERR is computed from the wrong column, and a line with a missing score still contributes its weight; counterexamples are given.", "quantifier": "every table with non-negative totals", "why_tests_cant": "All tables.", "anchors": ["metcalcpy/util/ecnt_statistics.py:weighted_average", "metcalcpy/util/rps_statistics.py"]}
{"id": "C37", "title": "Wind speeds and directions", "statement": "On every table speeds are non-negative or undefined, and directions are undefined or within [0,360]. Directions ought to be degrees below 360 with opposite winds 180 apart: the code never converts from radians, so they are never between 4 and 356 and can be 360 (counterexamples). The direction error, where reported, is the angle between the mean vectors; it is reported for up to 17000 cases with non-zero mean speeds and never for more than 225000, because the observed speed is computed without the aggregation flag.", "quantifier": "every table; every list of wind vectors and every grouping", "why_tests_cant": "Continuum of vectors.", "anchors": ["metcalcpy/util/met_stats.py", "metcalcpy/util/vcnt_statistics.py"]}
{"id": "C38", "title": "Scorecard aggregation of joined values pools the lines", "statement": "Aggregating one joined series value (or joined lead times) replaces its lines by one line for every valid and lead time, holding the total number of pairs and the means over all of them, with derived scores (FSS, AFSS, UFSS, MSE, climatological CRPS and RPS) those of all pairs together; other lines stay. It does not for contingency counts (always an exception), anomaly lines (values of the first line kept), missing means (counted as zero), perfect neighbourhood lines, valid/lead combinations without lines (exception), or two joined values (rows disappear).", "quantifier": "every table, line type, set of joined values and grouping of the pairs", "why_tests_cant": "All tables and all groupings; the row bookkeeping by index label depends on the whole history of the loop.", "anchors": ["metcalcpy/util/utils.py:aggregate_field_values", "metcalcpy/util/utils.py:calc_series_sums"]}
{"id": "C39", "title": "Scalar partial-sum statistics never raise", "statement": "FBAR, OBAR, FOBAR, FFBAR, OOBAR, MAE, MBIAS, FE, ME, ME2, PR_CORR and MSESS return a number or None on every table, with or without the needed columns; FSTDEV, OSTDEV, MSE, RMSE, ESTDEV, BCMSE and BCRMSE do so on every table without text cells. The scatter index raises an uncaught ZeroDivisionError exactly when, on a table without text cells, the published observation mean is zero and RMSE is not None, and MSE raises ValueError on text cells.", "quantifier": "every table and both values of the aggregation flag", "why_tests_cant": "Exceptional paths over all missing-data patterns.", "anchors": ["metcalcpy/util/sl1l2_statistics.py"]}
{"id": "C40", "title": "Gradient scores pool and stay in range", "statement": "Aggregated FGBAR, OGBAR, MGBAR, EGBAR, S1, S1_OG and FGOG_RATIO are those of all gradients together, however they were divided over lines; S1 lies in [0,200], is undefined exactly when all gradients vanish, and is zero for identical gradients.", "quantifier": "every list of forecast/observed gradients and every grouping", "why_tests_cant": "All groupings and values.", "anchors": ["metcalcpy/util/grad_statistics.py", "metcalcpy/agg_stat.py:AggStat._prepare_grad_data"]}
{"id": "C42", "title": "Vector partial-sum scores pool", "statement": "Aggregated vector scores (bias, speed variances and deviations, mean squared vector error and its root, lengths of mean vectors and of their difference, speed errors, mean speeds, directions) are those of all wind pairs together, however they were divided over lines; variances of speeds are non-negative when speeds do not exceed vector lengths. The two VL1L2 speeds are not weighted by pair counts: a counterexample is given.", "quantifier": "every list of forecast/observed wind vectors and every grouping", "why_tests_cant": "All groupings and values.", "anchors": ["metcalcpy/util/vl1l2_statistics.py", "metcalcpy/util/vcnt_statistics.py", "metcalcpy/agg_stat.py:AggStat._prepare_vl1l2_data"]}
{"id": "C43", "title": "Spread/skill lines pool", "statement": "Aggregated SSVAR scores (means, standard deviations, correlation, mean error, mean squared error, spread) are those of all pairs of the bins together, weighted by the number of pairs of each bin; the error standard deviation is not, and without the bin-count column nothing is prepared.", "quantifier": "every list of forecast/observed pairs with variances and every grouping into bins", "why_tests_cant": "All groupings and values.", "anchors": ["metcalcpy/util/ssvar_statistics.py", "metcalcpy/agg_stat.py:AggStat._prepare_ssvar_data"]}
{"id": "C44", "title": "Standard errors of series", "statement": "The standard error of a mean is the square root of variance over length times an inflation factor between 1 and 15 determined by the lag-1 coefficient; it is zero for constant or two-valued series and shift invariant; the flag is raised exactly for coefficients outside [-1,1]; the standard error of a sum is the length times it; the median versions use the quartile range of the present values. Changing the unit changes it inconsistently, [None] raises TypeError, one NaN makes it zero, and a series constant up to its last value raises ZeroDivisionError: counterexamples are given.", "quantifier": "every series", "why_tests_cant": "All series, lengths and missing-value patterns.", "anchors": ["metcalcpy/util/utils.py:compute_std_err_from_mean", "metcalcpy/util/utils.py:compute_std_err_from_median_no_variance_inflation_factor", "metcalcpy/util/utils.py:compute_std_err_from_median_variance_inflation_factor", "metcalcpy/util/utils.py:compute_std_err_from_sum"]}
{"id": "C45", "title": "Revision statistics keep revisions apart", "statement": "At lag one the autocorrelation reported for MTD revisions pairs values of the same revision only and does not depend on the order in which revisions appear; at larger lags it pairs values of different revisions (counterexample). The runs test is applied across revisions. The reported p-value of the autocorrelation depends on the series length only, is at most 0.06 and zero from 158 entries on.", "quantifier": "every data frame of revision ids and values, every normal distribution function", "why_tests_cant": "All frames, revision orders and missing-value patterns.", "anchors": ["metcalcpy/util/utils.py:calculate_mtd_revision_stats"]}
{"id": "C41", "title": "Multi-category skill score equals the score of the pooled table", "statement": "For multi-category contingency lines that list the category pairs in one common order, HSS_EC equals (D - ec*N)/(N - ec*N) rounded to 7 decimals, with D and N the pooled diagonal and overall counts; it does not depend on the order of the lines, is at most 1 and at least -ec/(1-ec) for counts that are not negative and ec in [0,1), is 1 when every case is on the diagonal and None exactly when there are no cases. Only an IndexError can escape.", "quantifier": "every number of categories, every layout of the category pairs, every list of lines", "why_tests_cant": "Layouts and numbers of categories are unbounded.", "anchors": ["metcalcpy/util/mcts_statistics.py:calculate_mcts_hss_ec"]}
{"id": "C46", "title": "Heights of pressure levels", "statement": "For positive decreasing pressures and positive virtual temperatures: with the ground below the lowest level every level's height is the surface height plus the hypsometric thickness of all layers from the surface pressure upwards, and heights rise; with the ground between two levels the lower levels are missing and the upper ones start at the ground with the thickness of the whole intersected layer, independent of the surface pressure (counterexample to the documented equation); if the surface pressure equals that of a level, or is below all of them, the whole column is missing.", "quantifier": "every column and surface pressure", "why_tests_cant": "Continuum of pressures.", "anchors": ["metcalcpy/vertical_interp.py:height_from_pressure"]}
{"id": "C47", "title": "Logarithmic contingency scores", "statement": "LODDS is the logarithm of the odds ratio of the pooled counts and defined exactly when all four are positive; SEDI and EDI are the extremal dependence indices of the false alarm rate and the published hit rate, SEDS and EDS the dependency scores of the pooled frequencies, each defined exactly where all logarithms and quotients are. The indices lie in [-1,1] and have the sign of the skill; more hits or fewer false alarms never lower them; EDS ignores false alarms; perfect forecasts have no LODDS, SEDI or EDI; a missing total makes the score undefined. No exception escapes, except a ValueError from LODDS on text, and SEDI can be undefined with four positive counts because the hit rate is rounded first.", "quantifier": "every table of contingency counts", "why_tests_cant": "Continuum of counts; logarithms have no exact test values.", "anchors": ["metcalcpy/util/ctc_statistics.py:calculate_lodds", "metcalcpy/util/ctc_statistics.py:calculate_sedi", "metcalcpy/util/ctc_statistics.py:calculate_seds", "metcalcpy/util/ctc_statistics.py:calculate_edi", "metcalcpy/util/ctc_statistics.py:calculate_eds"]}
{"id": "C48", "title": "Bias-adjusted Gilbert skill score", "statement": "For positive hits, misses and false alarms BAGSS is the Gilbert skill score at bias one of the adjusted table, whose misses are the only solution of misses = events*exp(-ln(events/m)*misses/fa); it lies in [-1,1], equals GSS for unbiased forecasts, and the adjusted misses lie between actual misses and false alarms. Without hits, misses or false alarms it is undefined.", "quantifier": "every table of contingency counts and every function with the defining equation of Lambert's W", "why_tests_cant": "Continuum of counts; the adjustment solves a transcendental equation.", "anchors": ["metcalcpy/util/ctc_statistics.py:calculate_bagss"]}
{"id": "C49", "title": "Sorting rows by their threshold", "statement": "Sorting a table by a threshold column (operator and number, or operator and text) returns exactly the rows of the table, each with its operator rank and value appended, ordered by value and then by operator (<, <=, == or none, >=, >), forwards or backwards; rows with the same threshold keep their order; sorting again changes nothing. An empty table, a missing column, mixed numbers and texts, non-text thresholds and malformed numbers raise. The claim fails for texts with <=.", "quantifier": "every table, threshold column, direction and number reader", "why_tests_cant": "Unbounded tables and threshold texts; order and stability are global.", "anchors": ["metcalcpy/util/ctc_statistics.py:sort_by_thresh"]}
{"id": "C50", "title": "ROC table of contingency counts", "statement": "The ROC table has exactly one row for each distinct threshold text of the input, in the order of the texts (reversed for descending), and its PODY and POFD are those of all lines with that text pooled. It exists whenever all thresholds are numbers or all are texts. The claim that rows are in the order of the thresholds fails.", "quantifier": "every table of contingency lines and direction", "why_tests_cant": "Unbounded number of lines and thresholds; pooling must hold for every partition of lines.", "anchors": ["metcalcpy/util/ctc_statistics.py:calculate_ctc_roc"]}
{"id": "C51", "title": "Event equalization of an axis", "statement": "Equalizing an axis takes, for every variable and statistic, the rows of that statistic with a listed value of the last series variable, keeps exactly those whose event (valid time, lead, independent variable) occurs in every combination of series and fixed values, and puts the results one after the other; so for every statistic any two combinations end with the same events, and the caller's table is unchanged. The claim fails for unlisted values of other series variables (kept), numeric series variables (nothing left), tables without statistic columns (one copy per statistic) and configurations without series (whole table per statistic, caller's table changed).", "quantifier": "every table, series and fixed variables, statistics", "why_tests_cant": "Unbounded rows, variables and values; balance is a global property.", "anchors": ["metcalcpy/util/utils.py:equalize_axis_data", "metcalcpy/event_equalize.py:event_equalize"]}
{"id": "C52", "title": "Event equalization of two axes", "statement": "With series on both axes the rows of both axes together are equalized over the merged series, the second axis having precedence, so any two combinations of merged series and fixed values end with the same events; without a second axis the result is that of the first. Axes with the same series are not equalized against each other at all, a variable on both axes counts with the values of the second axis only, and a fixed value given as plain text is taken for its characters: counterexamples are given.", "quantifier": "every table, pair of axes, fixed values and order of sets", "why_tests_cant": "Unbounded rows and variables; depends on the arbitrary order of sets.", "anchors": ["metcalcpy/util/utils.py:perform_event_equalization"]}
{"id": "C53", "title": "Stand-alone event equalization program", "statement": "The stand-alone program equalizes, for every series variable, the rows with a listed value of this variable over all variables and puts the results one after the other with their keys; with two axes the union is equalized over the series of the second axis. Rows are repeated for two series variables, a second value of a fixed variable is used for the next fixed variable, and date-time series values leave nothing: counterexamples are given.", "quantifier": "every table, axes and fixed values", "why_tests_cant": "Unbounded rows, variables and values.", "anchors": ["metcalcpy/agg_stat_event_equalize.py:AggStatEventEqualize.calculate_values", "metcalcpy/agg_stat_event_equalize.py:AggStatEventEqualize.run_ee_on_axis"]}
{"id": "C54", "title": "Equalization against previous cases", "statement": "Equalizing against previous cases returns, for every variable and series variable one after the other, exactly the rows of this variable with a listed value whose valid time and lead is a key of such a row among the previous cases, in order and with repetitions.", "quantifier": "every pair of tables, variables and series", "why_tests_cant": "Unbounded tables.", "anchors": ["metcalcpy/agg_stat_eqz.py:AggStatEventEqz.perform_ee_on_axis", "metcalcpy/event_equalize_against_values.py:event_equalize_against_values"]}
{"id": "C55", "title": "Rows of the aggregated statistics", "statement": "Without derived curves the output for an axis has exactly one row for every combination of series values, independent value and statistic, in order. Its value and limits are those of the statistic of exactly the rows that have these values (a member of a group or of joined values counts) and belong to the first forecast variable, ordered stably by time, lead and statistic and prepared; its count is the number of these rows; without rows there is no value. If the listed values are apart, every row with listed values is counted exactly once. The output exists whenever the series variables are columns and the result of every point exists; an empty table gives no output.", "quantifier": "every table, request, engine of statistics and number of iterations", "why_tests_cant": "Unbounded tables and products of values; the order of rows matters for the bootstrap.", "anchors": ["metcalcpy/agg_stat.py:AggStat._proceed_with_axis", "metcalcpy/agg_stat.py:AggStat._get_bootstrapped_stats", "metcalcpy/util/utils.py:sort_data"]}
{"id": "C56", "title": "Selection of the rows of a point", "statement": "Every listed value selects the rows that have it. This fails in four ways, each proved for all tables of its kind: a value that is the text of a number selects nothing from a column of texts; forecast variables after the first are ignored; joined values of a series variable are not aggregated although those of the independent variable are; a series variable that is no column, or a request without any column, raises a KeyError.", "quantifier": "every table and request", "why_tests_cant": "Depends on the kind of each column and value.", "anchors": ["metcalcpy/agg_stat.py:AggStat._proceed_with_axis", "metcalcpy/util/utils.py:is_string_integer", "metcalcpy/util/utils.py:is_string_strictly_float", "metcalcpy/util/utils.py:aggregate_field_values"]}
{"id": "C57", "title": "Rows and values of derived curves", "statement": "With derived curves and without bootstrap the output has the rows of all plain points and then, for every derived curve, one row for each combination of its fields. If the words of the two titles and the fields of the derived point name exactly one plain point each, its value is the difference, ratio, skill score or first value of the values in the output rows of these two points, to five decimals. A run succeeds only if every derived point has a plain point that its first title names.", "quantifier": "every table, request with derived curves, engine of statistics and names of groups", "why_tests_cant": "The pairing of points depends on all words, values and groups of the request.", "anchors": ["metcalcpy/agg_stat.py:AggStat._get_derived_points", "metcalcpy/agg_stat.py:AggStat._proceed_with_axis", "metcalcpy/agg_stat.py:AggStat._get_bootstrapped_stats_for_derived", "metcalcpy/util/utils.py:get_derived_curve_name", "metcalcpy/util/utils.py:calc_derived_curve_value"]}
{"id": "C58", "title": "Derived curves of repeated cases", "statement": "A derived curve other than SINGLE has a result only if no case (time, lead and statistic) occurs twice among the rows of either of its points. This holds if no named value contains a colon; it fails for values with times of day, for groups, and for the statistics that should be exempt.", "quantifier": "every table, request and engine of statistics", "why_tests_cant": "Depends on all pairs of rows of a table.", "anchors": ["metcalcpy/agg_stat.py:AggStat._get_bootstrapped_stats_for_derived", "metcalcpy/agg_stat.py:AggStat._validate_series_cases_for_derived_operation"]}
{"id": "C59", "title": "Bootstrap, significance and equivalence of derived curves", "statement": "With bootstrap the result of a derived curve is that of the bootstrap of the prepared rows of its two points, which are as many and, if no case occurs twice and both have the same cases, belong pairwise to the same cases. Without bootstrap a significance is one, minus one or missing. An equivalence test never gives a value.", "quantifier": "every table, request and engine of statistics", "why_tests_cant": "The pairing must hold for every order of the rows of a table.", "anchors": ["metcalcpy/agg_stat.py:AggStat._get_bootstrapped_stats_for_derived", "metcalcpy/agg_stat.py:AggStat._calc_stats_derived", "metcalcpy/util/tost_paired.py:tost_paired"]}
{"id": "C60", "title": "Both axes of the aggregated statistics", "statement": "The output has the rows of the first axis and then those of the second, each as for one axis; without series for the second axis only those of the first. Groups are named by their axis and number, in order, and the titles of both axes may use all names. A table without rows gives no output.", "quantifier": "every table, pair of requests and engine of statistics", "why_tests_cant": "State is passed from the first axis to the second.", "anchors": ["metcalcpy/agg_stat.py:AggStat.calculate_stats_and_ci", "metcalcpy/agg_stat.py:AggStat._init_out_frame"]}
{"id": "C61", "title": "Driver of economic cost/loss values", "statement": "The output has, for every combination of series values in order and every threshold among its rows in ascending order, one row for each cost/loss ratio (the multiples of the step below one): the economic value for this ratio of the totals of exactly the rows with these values, and their number, with and without bootstrap. Without bootstrap a run gives an output exactly if every combination has both events and other cases, and raises a TypeError otherwise. It fails for groups of values, the base rate, probabilities with a numpy without np.float, and confidence limits.", "quantifier": "every table of counts, request, step and choice of bootstrap samples", "why_tests_cant": "Rows, thresholds and ratios of every size; the exceptions depend on the totals of each combination.", "anchors": ["metcalcpy/agg_eclv.py:AggEclv._proceed_with_axis", "metcalcpy/agg_eclv.py:AggEclv._get_bootstrapped_stats", "metcalcpy/agg_eclv.py:AggEclv._calc_stats", "metcalcpy/bootstrap.py:bootstrap_and_value", "metcalcpy/util/eclv_statistics.py:calculate_eclv"]}
{"id": "C62", "title": "Driver of scorecards", "statement": "For every derived series and every combination of its fields with exactly one point named by each title: without rows for one of the points there is no output; otherwise there is one row made of the first row of the first point, with the name of the curve as model, the lead named in the title, and as value the score of the values of both points in order of time (mean difference, mean of the first series, or significance). The first series has no case twice. If both series have the same cases the score of a difference is the mean over the cases of the difference of their values. This fails for series with different cases, and for the significance in requests with several statistics.", "quantifier": "every table, request and method of significance", "why_tests_cant": "The pairing of values depends on the times in all rows of both series, and the rows on all combinations of fields.", "anchors": ["metcalcpy/scorecard.py:Scorecard.calculate_scorecard_data", "metcalcpy/scorecard.py:Scorecard._get_stats_for_derived", "metcalcpy/scorecard.py:Scorecard._get_derived_points"]}
{"id": "C63", "title": "Driver of bootstrapped statistics of objects", "statement": "For requests with one statistic, series values that are single texts, and no forecast variable, the output has, axis after axis, one row for every combination of series values and values of the independent variable. The row has the statistic of exactly the rows of the table with these values, taken in order of time, their number, and limits from the statistics of the samples. This fails for several statistics, series values that are numbers, groups of values, a forecast variable, and samples with repeated cases.", "quantifier": "every table, request of both axes, statistic, list of samples and method of limits", "why_tests_cant": "Where a result is written depends on all rows of the output and on the values of all fields; the samples depend on the cases of all points.", "anchors": ["metcalcpy/agg_stat_bootstrap.py:AggStatBootstrap.calculate_values", "metcalcpy/agg_stat_bootstrap.py:AggStatBootstrap._proceed_with_axis", "metcalcpy/agg_stat_bootstrap.py:AggStatBootstrap._get_bootstrapped_stats", "metcalcpy/agg_stat_bootstrap.py:AggStatBootstrap._calc_stats"]}
{"id": "C64", "title": "Driver of summary statistics", "statement": "The output of summary statistics has one row for every row of the table, in the same order, with the statistic named in the row and computed from that row alone; the fields of the line type are removed and all other cells are kept. With a group among the values of the independent variable there are instead the rows of every value and every combination of series values. This fails for joined series values, which are never aggregated, for groups of numbers, which select nothing, and after the first KeyError: the remaining rows have no value although no exception is raised.", "quantifier": "every table, line type, request of both axes and table of statistics", "why_tests_cant": "The rows of the output depend on all rows of the table and on every combination of values; one row without a statistic changes the values of all later rows.", "anchors": ["metcalcpy/sum_stat.py:SumStat.calculate_stats", "metcalcpy/sum_stat.py:SumStat.aggregate_special_fields", "metcalcpy/sum_stat.py:SumStat.process_rows"]}
{"id": "C65", "title": "Groups of blocked longitudes", "statement": "On a grid of 360 longitudes the large-scale blocks of a day are the groups of blocked longitudes in which neighbours are nearer than half of the wanted size and which are at least as long as the wanted size; every longitude of such a group is marked and nothing else. This fails for groups crossing the first longitude, which are dropped if neither side has the wanted size, for the option for the distance between blocked longitudes, which has no effect, and for grids of another size, which are not treated as a circle.", "quantifier": "every number of years and days, every row of blocked longitudes, every wanted size from 2", "why_tests_cant": "A day has 2^360 possible rows; the groups that cross the first longitude behave differently from the others.", "anchors": ["metcalcpy/contributed/blocking_weather_regime/Blocking.py:CalcBlocking.run_Calc_GIBL"]}
{"id": "C66", "title": "Instantaneous blocks", "statement": "A longitude is blocked on a day exactly if for at least one of the latitude shifts the mean height in the northern half of the window about the central latitude is greater than the mean height in its southern half, where the central latitudes are the means over the years; every year has its days and every day its longitudes. This fails if a height is missing for one of the shifts or a shift reaches over the pole: then there is no block, whatever the other shifts say; and every other method than PH silently gives no blocks.", "quantifier": "every list of shifts, window, number of years, days, longitudes and heights, with missing heights", "why_tests_cant": "The rule must hold for every height field and every central latitude; a single missing value removes blocks without an exception.", "anchors": ["metcalcpy/contributed/blocking_weather_regime/Blocking.py:CalcBlocking.run_mod_blocking1d", "metcalcpy/contributed/blocking_weather_regime/Blocking.py:CalcBlocking.run_Calc_IBL"]}
{"id": "C67", "title": "Central blocking latitudes", "statement": "For every year and longitude of a grid of 360 longitudes the central blocking latitude is the whole part of the mean, over the longitude and its neighbours on the circle, of the latitudes at which the standard deviation of the height anomalies times the root of the cosine of the latitude is greatest; of several equal ones the first latitude counts. This fails for missing heights: a latitude without any height is taken as the one of greatest activity.", "quantifier": "every odd number of smoothing points up to 721, every grid of latitudes with 360 longitudes, every number of years and days", "why_tests_cant": "The greatest standard deviation must be found for every field of heights; the circle wraps at both ends for every number of smoothing points.", "anchors": ["metcalcpy/contributed/blocking_weather_regime/Blocking.py:CalcBlocking.run_CBL", "metcalcpy/contributed/blocking_weather_regime/Blocking.py:CalcBlocking.__init__"]}
{"id": "C68", "title": "Weather regimes by frequency", "statement": "The weather regimes are the clusters found by the clustering, numbered from 1 for the most frequent one; every day is labelled with the number of its cluster, the patterns are in the same order, and the share given for a regime is the share of the days with its label.", "quantifier": "every number of clusters and days, every assignment of days to clusters, every way to order equally frequent clusters", "why_tests_cant": "Shares, patterns and labels are permuted separately (sorted, reversed, relabelled); they must agree for every assignment of days.", "anchors": ["metcalcpy/contributed/blocking_weather_regime/WeatherRegime.py:WeatherRegimeCalculation.run_K_means", "metcalcpy/contributed/blocking_weather_regime/WeatherRegime.py:WeatherRegimeCalculation.get_cluster_fraction"]}
{"id": "C69", "title": "Forecast regimes in the order of the observed ones", "statement": "Reordering puts at every place the pattern and the share of the wanted regime and relabels the days accordingly; if every regime has a place, every day keeps a label and the shares are still those of the labels. With correlations the wanted regime is the one whose pattern has the greatest correlation with the observed pattern. This fails if a forecast regime is the best match of no observed one: its days get no label at all (cells that are never set).", "quantifier": "every number of regimes, patterns, shares, labels and order", "why_tests_cant": "The order by correlation depends on all patterns; that it need not be a permutation shows only for some patterns.", "anchors": ["metcalcpy/contributed/blocking_weather_regime/Blocking_WeatherRegime_util.py:reorder_fcst_regimes", "metcalcpy/contributed/blocking_weather_regime/Blocking_WeatherRegime_util.py:reorder_fcst_regimes_correlate"]}
{"id": "C70", "title": "Frequencies of regimes in windows of days", "statement": "The frequency of a regime in a window is the number of days of the window with its label, for every year and every window that lies within the year; if every day has a regime the frequencies of a window add up to its length.", "quantifier": "every number of regimes, years and days, every length of the window", "why_tests_cant": "Windows at both ends of the year must be complete for every length.", "anchors": ["metcalcpy/contributed/blocking_weather_regime/WeatherRegime.py:WeatherRegimeCalculation.compute_wr_freq"]}
{"id": "C71", "title": "Anomalies for weather regimes", "statement": "The anomalies are the deviations from the mean of the same day in all years, weighted with the cosine of the latitude; missing values stay missing, and the second result has one row for each day with all latitudes and longitudes in order. This fails for the removal of the trend, which has no effect, and for latitudes given as an array of the grid, which raise ValueError unless the grid is a square.", "quantifier": "every grid, number of years and days, every data with missing values", "why_tests_cant": "The claim that the trend is removed is about all data; the shape of the result depends on the grid.", "anchors": ["metcalcpy/contributed/blocking_weather_regime/WeatherRegime.py:WeatherRegimeCalculation.weights_detrend"]}
{"id": "C72", "title": "Longitudes from -180:180 to 0:360 and back", "statement": "Flipping a grid gives the same meridians in the other convention, in increasing order, and the data in the order of the new longitudes. This holds if both hemispheres have the same number of longitudes or one of them is empty; otherwise the data move to wrong meridians, because they are rolled by the number of the other half. If the longitude array shares its storage with the flipped one, the eastern longitudes are given twice.", "quantifier": "every grid of longitudes in two hemispheres, every data", "why_tests_cant": "Tests use grids with equal halves; the values move wrongly only for unequal halves.", "anchors": ["metcalcpy/contributed/spacetime/spacetime_utils.py:lonFlip"]}
{"id": "C73", "title": "Smoothing with the weights 1-2-1", "statement": "Every value becomes the mean of itself (twice) and its neighbours, at the ends with the weights 3-1; the sum is conserved and no value leaves the range of the data. A missing neighbour is left out. Any missing value makes the first value missing, and a last value after a missing one raises IndexError.", "quantifier": "every series with missing values at any places", "why_tests_cant": "The cases depend on the pattern of missing values around each place.", "anchors": ["metcalcpy/contributed/spacetime/spacetime.py:smooth121_1D"]}
{"id": "C74", "title": "Symmetric and antisymmetric parts", "statement": "The two parts are half the sum and half the difference of the data at opposite latitudes; together they give back the data of both hemispheres. From north to south the rows belong to the northern latitudes in their order. From south to north they are in the opposite order of the latitudes returned for them.", "quantifier": "every grid of latitudes, every data with missing values", "why_tests_cant": "The order of rows and latitudes must agree for every grid.", "anchors": ["metcalcpy/contributed/spacetime/spacetime.py:get_symmasymm"]}
{"id": "C75", "title": "Tapering of time series", "statement": "A window of a cosine bell tapers the wanted share of the series at both ends: it is symmetric, positive, at most 1, rises from the ends and is 1 in between. Tapering data to zero makes both ends zero and leaves the values outside the tapered places unchanged. A window that does not fit to the series raises IndexError or ValueError.", "quantifier": "every length of the series and of the tapered ends, every data", "why_tests_cant": "The weights of both ends are written separately and meet for short series; they must agree for every length.", "anchors": ["metcalcpy/contributed/spacetime/spacetime.py:window_cosbell", "metcalcpy/contributed/rmm_omi/compute_mjo_indices.py:taper_vector_to_zero"]}
{"id": "C76", "title": "Removing the mean of the last 120 days", "statement": "For times with equal steps every value is reduced by the mean of all values of the last 120 days at the same place, itself included, leaving out missing values; missing values stay missing. The result of a time does not depend on later data. With irregular times another number of days is used, because only the first step is considered.", "quantifier": "every step in time, number of times and places, every data with missing values", "why_tests_cant": "The window is counted in steps; that it is 120 days long must hold for every step.", "anchors": ["metcalcpy/contributed/rmm_omi/compute_mjo_indices.py:rem_120day_mean"]}
{"id": "C77", "title": "Segments of a time series", "statement": "The segments of a cross spectrum start at equal distances within the series, and the loop ends exactly if the distance is positive or no segment fits. The documented overlap fails: a positive number leaves times out between segments, a negative one gives one time more than it says; and a segment that ends with the last time is not used.", "quantifier": "every length of the series and the segments, every overlap", "why_tests_cant": "Whether the loop ends, and which segments are used, depends on all three numbers.", "anchors": ["metcalcpy/contributed/spacetime/spacetime.py:mjo_cross"]}
{"id": "C78", "title": "Coherence lies between 0 and 1", "statement": "For all data, averaging the spectra of segments and latitudes and smoothing them keeps the powers non-negative and the coherence squared between 0 and 1; a series has coherence 1 and phase 0 with itself, and the phase vector has length 1. Without segments the result is undefined; segments of one frequency raise IndexError.", "quantifier": "every number of segments, frequencies and latitudes, every pair of transforms", "why_tests_cant": "The bound is an inequality about all data (Cauchy and Schwarz), kept by averages and smoothing.", "anchors": ["metcalcpy/contributed/spacetime/spacetime.py:mjo_cross", "metcalcpy/contributed/spacetime/spacetime.py:mjo_cross_segment_realfft", "metcalcpy/contributed/spacetime/spacetime.py:mjo_cross_coh2pha", "metcalcpy/contributed/spacetime/spacetime.py:smooth121"]}
{"id": "C79", "title": "Axes of the spectra", "statement": "Every column of a spectrum holds the wavenumber of the axis (eastward positive), for even and odd numbers of longitudes. Every row holds the frequency of the axis if the length of the segments is a multiple of four. For other lengths the axis is wrong: with remainder 2 or 3 the last row repeats the frequency zero, with remainder 1 the segments do not fit and raise ValueError.", "quantifier": "every number of longitudes and length of segments", "why_tests_cant": "The order depends on the parity of two numbers; tests use one length.", "anchors": ["metcalcpy/contributed/spacetime/spacetime.py:mjo_cross", "metcalcpy/contributed/spacetime/spacetime.py:mjo_cross_segment_realfft"]}
{"id": "C80", "title": "Zonal and meridional means", "statement": "The zonal mean is the mean of the values that are not missing. The meridional mean is the mean of the values between the two given latitudes, weighted with the cosine of the latitude: it lies between the smallest and largest of these values, is missing exactly if there are none, and limits in the wrong order raise ValueError.", "quantifier": "every data with missing values, every latitudes and limits", "why_tests_cant": "That the limits choose the latitudes must hold for all limits; a test with one band cannot show that the limits are ignored.", "anchors": ["metcalcpy/pre_processing/directional_means.py:zonal_mean", "metcalcpy/pre_processing/directional_means.py:meridional_mean"]}
{"id": "C81", "title": "Radial and tangential winds around a storm", "statement": "Radial and tangential wind are the parts of the wind along the direction from the centre at the given azimuth and a quarter turn further. The speed is kept, the wind can be computed back, and a full turn of the azimuth changes nothing.", "quantifier": "every azimuth and wind", "why_tests_cant": "The angle is shifted and wrapped around; the identities hold for all angles or the wrap is wrong.", "anchors": ["metcalcpy/process_tcrmw.py:compute_wind_components"]}
{"id": "C82", "title": "Contributions of zonal waves add up to the field", "statement": "For every field around a circle of latitude the contributions of the wavenumbers are the parts of the field with this number of waves and add up to the field at every longitude. Some of the wavenumbers can be asked for. Unknown wavenumbers raise KeyError, an unknown package ValueError.", "quantifier": "every number of longitudes, every field, every choice of wavenumbers", "why_tests_cant": "The identity is the inversion of the Fourier transform; whether it holds depends on the parity of the number of longitudes and on the waves asked for.", "anchors": ["metcalcpy/pre_processing/waves.py:zonal_wave_contributions", "metcalcpy/pre_processing/waves.py:zonal_wave_coeffs"]}
{"id": "C83", "title": "Amplitudes and phases of zonal waves", "statement": "Amplitude a and phase p of wavenumber k say that the part of the field with k waves is a cos(k lambda + p); a field of one wave has its amplitude at this wavenumber and zero at all others. The covariance of two fields is given by wavenumber.", "quantifier": "every number of longitudes, every field, every wavenumber", "why_tests_cant": "The factor of the amplitude differs between wavenumbers; orthogonality must hold for all numbers of longitudes.", "anchors": ["metcalcpy/pre_processing/waves.py:zonal_wave_ampl_phase", "metcalcpy/pre_processing/waves.py:zonal_wave_covariance"]}
{"id": "C84", "title": "Skill of wave activity", "statement": "The skill of every forecast line is its correlation with the first line, a number between -1 and 1, and missing if a value is missing or a line does not vary. Computing the skill leaves the activity as it was and works for any number of forecast hours and lines.", "quantifier": "every number of forecast hours, lines and times, every activity with missing values", "why_tests_cant": "The result is a view of the argument; that later correlations still read original values, and which values are overwritten, depends on the order of all stores.", "anchors": ["metcalcpy/contributed/tropical_diagnostics/ccew_activity.py:wave_skill"]}
{"id": "C85", "title": "Removing the seasonal cycle", "statement": "Every value is reduced by the mean of its calendar day over all years, or by the mean of all values if no day occurs twice; missing values stay missing. The anomalies of every calendar day add up to 0. A step of 0 raises ValueError.", "quantifier": "every series of dates and values, every number of values per day", "why_tests_cant": "Days are compared as day of the year in one place and as month and day in another; they differ only in leap years.", "anchors": ["metcalcpy/contributed/tropical_diagnostics/ccew_activity.py:rem_seas_cyc", "metcalcpy/contributed/tropical_diagnostics/ccew_activity.py:rem_seas_mean", "metcalcpy/contributed/tropical_diagnostics/ccew_activity.py:waveact"]}
{"id": "C86", "title": "Projection on waves and activity", "statement": "The projection of data on an EOF is the sum of products over the places of the EOF, whatever the order of the latitudes of the data. The activity is the root of the sum of squares of the projections: not negative, 0 only if all projections are 0, and proportional to the data. Unknown waves and missing months raise.", "quantifier": "every grid of data that covers the EOFs, every EOFs", "why_tests_cant": "The choice by label depends on the order of the coordinates; a test has data in one order.", "anchors": ["metcalcpy/contributed/tropical_diagnostics/ccew_activity.py:waveproj", "metcalcpy/contributed/tropical_diagnostics/ccew_activity.py:waveact"]}
{"id": "C87", "title": "Correlation table", "statement": "The table of two series has the number of complete pairs and their correlation, which lies between -1 and 1, does not depend on the order of the series or on units, changes its sign with the sign of a series and is 1 for a series with itself. Pairs with a missing value change nothing. The Pearson correlation is missing exactly if a series does not vary. The adjusted square never exceeds the square. Bad lengths and tails raise AssertionError, unknown methods and fewer than two complete pairs ValueError.", "quantifier": "every two series with missing values, every method Pearson, biweight, percentage bend, every tail", "why_tests_cant": "Invariance and bounds are statements about all real series; tests compare a few tables.", "anchors": ["metcalcpy/util/correlation.py:corr", "metcalcpy/util/correlation.py:remove_na", "metcalcpy/util/correlation.py:bicor", "metcalcpy/util/correlation.py:percbend"]}
{"id": "C88", "title": "Biweight midcorrelation", "statement": "It is the correlation of deviations from the median with weights that fall to 0 at nine median distances, defined exactly if the median distance of both series is not 0. How far out an outlier lies does not matter.", "quantifier": "every two series of equal length, every change of values beyond nine median distances", "why_tests_cant": "The median and the weights change with every value; robustness is about all changes of all outliers.", "anchors": ["metcalcpy/util/correlation.py:bicor"]}
{"id": "C89", "title": "Percentage bend correlation", "statement": "It is the correlation of deviations from the bent mean, cut at -1 and 1, and missing if four fifths of the values equal the median.", "quantifier": "every two series of equal length", "why_tests_cant": "Division by a zero distance gives infinities that are set to 0, -1 or 1 in different places.", "anchors": ["metcalcpy/util/correlation.py:percbend"]}
{"id": "C90", "title": "Confidence intervals of effect sizes", "statement": "The interval of a correlation lies strictly between -1 and 1 with the correlation inside, is symmetric on the scale of Fisher's transform, gets narrower with more pairs and turns with the sign. The interval of a standardised difference has the difference in its middle. Unknown kinds of effect and confidences outside of 0 to 1 raise AssertionError.", "quantifier": "every correlation between -1 and 1, every number of pairs above 3, every confidence, every quantile function that is negative below a half", "why_tests_cant": "Monotonicity in the number of pairs is a statement about all numbers.", "anchors": ["metcalcpy/util/correlation.py:compute_esci"]}
{"id": "C91", "title": "Arithmetic on bootstrap results", "statement": "Adding or subtracting a number moves the value and both limits of a bootstrap result by it, multiplying scales them; the limits are always in order afterwards, also after subtracting from a number or multiplying with a negative one. The width stays the same or is scaled by the size of the factor, what was added can be taken away again, and a factor turns the sign of the significance with its own sign. The error fraction is the width divided by the value and infinite for a value of zero; a factor keeps its size and turns its sign with its own. Results without a value or a limit raise TypeError, except that the fraction of a value of zero is infinite even without limits.", "quantifier": "every result, every number, every operation", "why_tests_cant": "Order of the limits, widths and signs are statements about all numbers.", "anchors": ["metcalcpy/bootstrap.py:BootstrapResults"]}
{"id": "C92", "title": "Environment variables in configuration texts", "statement": "Every ${NAME} in a text is exchanged for the value of the environment variable, or for its bare name if it is not set, and nothing else is changed; a text without variables stays as it is, the result has no variables left and depends only on the variables the text mentions.", "quantifier": "every text, every environment whose values have no $", "why_tests_cant": "The texts and environments are unbounded; the replacement is sequential, so that one value can change what a later step sees.", "anchors": ["metcalcpy/util/read_env_vars_in_config.py:parse_config"]}
{"id": "C93", "title": "Which configuration texts are filled in", "statement": "Texts after the tag are filled in, texts in quotes and texts without variables are not; the path is read before the data, and with neither ValueError is raised.", "quantifier": "every scalar, every history of calls in the process, every path and data", "why_tests_cant": "The loader is a class of another package that is changed by each call; what a call does depends on the history of the process.", "anchors": ["metcalcpy/util/read_env_vars_in_config.py:parse_config"]}
{"id": "C94", "title": "Dispersion curves of Kelvin, mixed and mode 0 waves", "statement": "Kelvin waves go east with the speed of gravity waves of the equivalent depth; mixed Rossby-gravity waves go west and inertio-gravity waves of mode 0 east, with the only positive frequency of their quadratic relation; all satisfy Matsuno's relation and have no value on the other side. Frequencies increase with the wavenumber and with depth, and mode 0 exceeds the Kelvin wave by the frequency of the mixed wave that goes the other way.", "quantifier": "every depth, latitude with positive cosine, range and number of wavenumbers", "why_tests_cant": "The curves are formulas with roots over all real wavenumbers; tests look at a few points.", "anchors": ["metcalcpy/contributed/spacetime/matsuno_plot.py:kelvin_mode", "metcalcpy/contributed/spacetime/matsuno_plot.py:mrg_mode", "metcalcpy/contributed/spacetime/matsuno_plot.py:eig_n_0", "metcalcpy/contributed/spacetime/matsuno_plot.py:dispersion", "metcalcpy/contributed/spacetime/matsuno_plot.py:wn_array", "metcalcpy/contributed/spacetime/matsuno_plot.py:wn2k", "metcalcpy/contributed/spacetime/matsuno_plot.py:afreq2freq"]}
{"id": "C95", "title": "Dispersion curves of higher modes", "statement": "For each mode from 1, Matsuno's relation has exactly one positive frequency east and two west, one on each side of the gravity wave of the same length; the curves hold what the solver finds for this relation, starting below the Rossby wave, above the gravity wave that goes west and below the one that goes east. The curves do not cross: Rossby waves are slower the higher the mode, below mixed waves, and gravity waves are above them, faster the higher the mode.", "quantifier": "every depth, latitude with positive cosine, mode from 1 and wavenumber", "why_tests_cant": "Existence, uniqueness and order of roots of a cubic are statements about all wavenumbers.", "anchors": ["metcalcpy/contributed/spacetime/matsuno_plot.py:er_n", "metcalcpy/contributed/spacetime/matsuno_plot.py:eig_n", "metcalcpy/contributed/spacetime/matsuno_plot.py:wig_n", "metcalcpy/contributed/spacetime/matsuno_plot.py:dispersion"]}
{"id": "C96", "title": "Mask of the filter for equatorial waves", "statement": "Coefficients are either kept as they are or set to zero, which of them depends only on the limits and the shape, and masking again changes nothing. Kept are the periods and wavenumbers asked for whose frequency lies between the dispersion curves of both depths; without depths, or for an unknown name, periods and wavenumbers alone decide. With one depth only, or for one wavenumber only, this fails.", "quantifier": "every array of coefficients, every limits, depths and name of a wave", "why_tests_cant": "The mask is a region bounded by dispersion curves for every size of the array; a test sees single points of it.", "anchors": ["metcalcpy/contributed/spacetime/spacetime.py:kf_filter_mask"]}
{"id": "C97", "title": "Filter for equatorial waves", "statement": "If all periods and wavenumbers are asked for, the data of an even number of times come back unchanged. A single wave is kept or removed as a whole: eastward waves with k crests as if they had k-1, westward ones as if they had k+1, so that waves within the range asked for are removed and others kept. Of an odd number of times one is lost.", "quantifier": "every field, number of longitudes and times, wave with any amplitude and phase", "why_tests_cant": "It rests on sums of cosines over all sizes of the grid.", "anchors": ["metcalcpy/contributed/spacetime/spacetime.py:kf_filter"]}
{"id": "C98", "title": "Filter of the OMI index", "statement": "The line of least squares is removed from each series; what remains is tapered, filled with zeros and reduced to the sum of those parts whose frequency and wavenumber are within the limits. A single wave within the limits comes back unchanged, any other is removed, westward waves having negative wavenumbers. This holds for even numbers of times and longitudes; otherwise coefficients are judged by the frequency of a neighbour. With equal limits nothing is kept.", "quantifier": "every field, size, step between times and limits of period and wavenumber; every wave with any amplitude and phase", "why_tests_cant": "It rests on sums of cosines over all sizes of the grid, and on every combination of limits.", "anchors": ["metcalcpy/contributed/rmm_omi/compute_mjo_indices.py:perform_3dim_spectral_filtering", "metcalcpy/contributed/rmm_omi/compute_mjo_indices.py:taper_vector_to_zero"]}
{"id": "C99", "title": "Projection onto two patterns", "statement": "The two coefficients of a vector are those of the nearest combination of the two patterns, the least ones if several are nearest. A combination of independent patterns gives back its coefficients, sums and multiples of vectors give sums and multiples of coefficients, and orthogonal patterns can be projected on one by one. Patterns of different lengths raise ValueError.", "quantifier": "every vector and every two patterns of any length, also dependent or zero ones", "why_tests_cant": "The nearest combination is compared with all others, over the reals; tests compare a few numbers.", "anchors": ["metcalcpy/contributed/rmm_omi/compute_mjo_indices.py:regress_vector_onto_eofs"]}
{"id": "C100", "title": "Values of the RMM index", "statement": "Each value is the projection of the anomalies of the three variables against the mean of their last 120 days, each over its norm, onto the two patterns, over the norm of the coefficient. Numbers added to all values at a longitude change nothing, and later data do not change earlier values. Too few times, equal first times, too few norms and other numbers of longitudes raise their exceptions. Longitudes that differ from those of the patterns are not noticed.", "quantifier": "every series of equal steps without gaps, every two patterns, all norms other than 0; every change of later data; all coordinates", "why_tests_cant": "Independence of later data and of added numbers compares all pairs of inputs, for any number of times and longitudes.", "anchors": ["metcalcpy/contributed/rmm_omi/compute_mjo_indices.py:rmm", "metcalcpy/contributed/rmm_omi/compute_mjo_indices.py:regress_2dim_data_onto_eofs"]}
{"id": "C101", "title": "Values of the OMI index", "statement": "Each value is the projection of the filtered data of its time onto the two patterns of that day of the year, over the standard deviation of the first coefficient, so the first index has variance 1. Lines added to the data at each place and positive factors change nothing, and a negative factor changes the sign. The last day of a leap year raises IndexError when there are patterns for 365 days. Coordinates that differ from those of the patterns are not noticed.", "quantifier": "every field and size, all times, all patterns, every line and factor at each place", "why_tests_cant": "It compares all pairs of fields that differ by a factor and lines, through the whole chain from filter to projection.", "anchors": ["metcalcpy/contributed/rmm_omi/compute_mjo_indices.py:omi", "metcalcpy/contributed/rmm_omi/compute_mjo_indices.py:regress_3dim_data_onto_eofs"]}
{"id": "C102", "title": "Fast filter of periods", "statement": "The result is the detrended and tapered series reduced to some of its cosines and sines. A cosine or sine is kept if twice its number of periods is within the limits, not if its own is: a wave within the limits can be removed and one outside kept. Lines added to a series change nothing, and factors are factors of the result. The caller's array is overwritten with the detrended data. Too few times, no places, equal times, times going backwards and too many data raise their exceptions.", "quantifier": "every series up to 131072 values at every place, all limits above 0, all steps of time; every single wave; every line and factor", "why_tests_cant": "It is about every wave and every limit; a test on one wave with fixed limits can miss that the periods are wrong by a factor of two.", "anchors": ["metcalcpy/contributed/rmm_omi/compute_mjo_indices.py:bandpass_filter_3D"]}
{"id": "C103", "title": "Zonal mean of the variance", "statement": "The result is the mean, over the longitudes that have values, of the variances of their series without missing values, and NaN if no longitude has values. It is never negative, and 0 exactly if no series changes.", "quantifier": "every table of values and gaps, of any size", "why_tests_cant": "When the result is 0 is an equivalence over all tables.", "anchors": ["metcalcpy/contributed/rmm_omi/compute_mjo_indices.py:zon_avg_variance"]}
{"id": "C104", "title": "Wind stress of the Madden-Julian oscillation", "statement": "Each series has the smooth of the first filter taken away and is then smoothed with the second; a constant leaves nothing away from the ends if the weights of the first filter have the sum 1. The coefficients are the projections on the patterns. Each point gets, for the first four, the product of its series with the coefficient over the standard deviation of the coefficient, times the coefficient; points without a value at the 11th time come back as they were. Doubling the flux gives four times the result, not twice. Too few points, times or patterns raise their exceptions.", "quantifier": "every flux, every list of patterns and filters that fit it, every factor", "why_tests_cant": "The sums range over all points, times and filters; that factors come back squared is an equation for all factors.", "anchors": ["metcalcpy/contributed/mjo_enso/compute_mjo_enso.py:calc_tau_MJO"]}
{"id": "C105", "title": "Wind power of the Madden-Julian oscillation", "statement": "The structure solves the equation of the Kelvin wave by the trapezoidal rule, with the value of the Gaussian curve at the place nearest to the equator. It is the same north and south between latitudes of equal distance from the equator, and positive where latitude times step is less than two squared widths. It has the latitudes of the middles of equal steps, not those of the data. Where that product is larger its sign alternates. The power is the structure times the product of current and stress, NaN if a value is missing. Single latitudes, latitudes all south of the equator and fluxes of other sizes raise their exceptions.", "quantifier": "every list of latitudes, every wind and flux on the grid with gaps anywhere, every error function given to the code", "why_tests_cant": "Where the sign alternates depends on the latitudes and their number for every grid; tests use one grid.", "anchors": ["metcalcpy/contributed/mjo_enso/compute_mjo_enso.py:calc_wpower_MJO"]}
{"id": "C106", "title": "MaKE and MaKI indices", "statement": "If the 91st day is the first of a month there is one value for each month from then on: the least of the 91 daily values up to the first day of the month, over the standard deviation of these. If the 91st day is another day, ValueError is raised or each value is labelled with the month after its own. Positive factors at each longitude change nothing, and the sign of the second pattern does not change MaKE. Sizes that do not fit and too few times or patterns raise their exceptions.", "quantifier": "every daily record from any date to any date across months, years and leap years; all data and patterns", "why_tests_cant": "Whether there is a value depends on the calendar: a record from the 1st of January works in ordinary years and fails in leap years.", "anchors": ["metcalcpy/contributed/mjo_enso/compute_mjo_enso.py:make_maki"]}
{"id": "C107", "title": "Bootstrap of derived curves", "statement": "The rows of the two curves are drawn together: for each number of rows, generator and settings there are draws of row numbers made of circular blocks (single rows, or blocks of the square root of the number of rows), the same for all data, and each member of the distribution is the derived value of the statistics of these rows of both curves, each with the statistic named in its own rows. The difference of a curve with itself is 0 without limits. Exchanging the curves changes the sign of the difference and of all members of its distribution, and exchanges and negates the limits (percentile method). Different numbers of rows raise ValueError; an unknown statistic gives an empty result.", "quantifier": "every generator of random numbers, number of iterations and threads, every pair of tables with equal numbers of rows, every statistic defined on their rows, every operation except the equivalence test", "why_tests_cant": "That both curves see the same draws must hold for every state of the generator; tests compare one seed with stored numbers.", "anchors": ["metcalcpy/agg_stat.py:AggStat._calc_stats_derived", "metcalcpy/agg_stat.py:AggStat._get_bootstrapped_stats_for_derived", "metcalcpy/bootstrap.py:bootstrap_and_value"]}
{"id": "C108", "title": "Frequency of blocks that last", "statement": "For a grid of 360 longitudes, years and days where every blocked longitude lies in a group of at least the wanted size and no day is blocked all around (the output of run_Calc_GIBL always has such groups), run_Calc_Blocks with the longitudes 0 to 359 returns an array of zeros and ones, and a one only where the longitude is blocked on that day. The array counts the groups of blocks: each block is a list of at least five groups, each continuing the one before one or two days later in the same year with more than gibl_overlap longitudes in common, with centers not farther than block_travel from the first; no group is counted twice. There is a result whenever two groups of a year are not more than two days apart.", "quantifier": "every array of groups of blocked longitudes with any number of years and days, every size of at least 2, overlap of at least 0, block_time of at least 1 and travel limit", "why_tests_cant": "The groups are matched to their ends by position in lists collected over all days; one wrong end shifts all later ones. Tests see one data set.", "anchors": ["metcalcpy/contributed/blocking_weather_regime/Blocking.py:BlockingCalculation.run_Calc_Blocks", "metcalcpy/contributed/blocking_weather_regime/Blocking.py:BlockingCalculation.run_Calc_GIBL"]}
{"id": "C109", "title": "Chains of groups are found", "statement": "If the groups of a year are a single chain (each continues the one before) of at least five groups and not fewer than block_time, whose centers stay near the first, then run_Calc_Blocks marks exactly their longitudes on their days.", "quantifier": "every array as in C108, every year whose groups form one chain", "why_tests_cant": "Completeness depends on the bookkeeping of used groups over all years before.", "anchors": ["metcalcpy/contributed/blocking_weather_regime/Blocking.py:BlockingCalculation.run_Calc_Blocks"]}
{"id": "C110", "title": "Exceptions and limits of the tracking of blocks", "statement": "run_Calc_Blocks raises IndexError if there is no group at all, TypeError if every group follows the one before by more than two days, and IndexError if a day is blocked at all longitudes.", "quantifier": "every array of 360 longitudes of these kinds", "why_tests_cant": "Quiet periods are rare in test data.", "anchors": ["metcalcpy/contributed/blocking_weather_regime/Blocking.py:BlockingCalculation.run_Calc_Blocks"]}
{"id": "C111", "title": "Several runs into one output file", "statement": "A run of agg_stat or agg_eclv without append_to_file replaces its output by one header line and the lines of its rows; with append_to_file 'True' these lines come after what is there, without a header. So after any number of runs of both programs into one file, the first without and the others with the option, the file is the header of the first run and the lines of all runs in order, each as if it were run alone, whatever the file was before; no other file changes.", "quantifier": "every list of runs of the two programs with any parameters and any files, whose input is not the output", "why_tests_cant": "Histories of runs on one file are not tested at all.", "anchors": ["metcalcpy/agg_stat.py:AggStat.calculate_stats_and_ci", "metcalcpy/agg_eclv.py:AggEclv.calculate_stats_and_ci"]}
{"id": "C112", "title": "A run that fails leaves the files", "statement": "If agg_stat, agg_eclv, agg_stat_eqz or the event equalization program raises an exception, every file is as before; the same holds for scorecard and sum_stat if the table has rows, and for agg_stat_bootstrap without equalization. Without its input file every program fails with FileNotFoundError for this file and writes nothing (agg_eclv after it has looked at its step and line type).", "quantifier": "every state of the files, every parameters, every exception of the calculation", "why_tests_cant": "The point of failure depends on the data; tests look at outputs of successful runs.", "anchors": ["metcalcpy/agg_stat.py:AggStat.calculate_stats_and_ci", "metcalcpy/agg_eclv.py:AggEclv.calculate_stats_and_ci", "metcalcpy/scorecard.py:Scorecard.calculate_scorecard_data", "metcalcpy/sum_stat.py:SumStat.calculate_stats", "metcalcpy/agg_stat_eqz.py:AggStatEventEqz.calculate_values", "metcalcpy/agg_stat_event_equalize.py:AggStatEventEqualize.calculate_values", "metcalcpy/agg_stat_bootstrap.py:AggStatBootstrap.calculate_values"]}
{"id": "C113", "title": "The switch event_equal", "statement": "All programs with the entry event_equal do the same for the text 'True' and the truth value True, and the same for 'False', False, None and the empty text: same files, same exception.", "quantifier": "every parameters and files of agg_stat, agg_eclv, sum_stat, agg_stat_eqz and agg_stat_bootstrap", "why_tests_cant": "Equality of two runs for every configuration.", "anchors": ["metcalcpy/util/utils.py:parse_bool", "metcalcpy/agg_stat.py:AggStat.calculate_stats_and_ci", "metcalcpy/agg_eclv.py:AggEclv.calculate_stats_and_ci", "metcalcpy/sum_stat.py:SumStat.calculate_stats", "metcalcpy/agg_stat_eqz.py:AggStatEventEqz.calculate_values", "metcalcpy/agg_stat_bootstrap.py:AggStatBootstrap.calculate_values"]}
{"id": "C114", "title": "Event equalization of objects between files", "statement": "agg_stat_eqz without equalization, or for a table without rows, writes the table it has read. With equalization it writes, under the same header, the rows kept on the first axis followed by those of the second axis if it has series, and changes no other file. If rows are kept, agg_stat_bootstrap without equalization on that file gives the statistics of exactly these rows. The program that equalizes events (agg_stat_event_equalize) writes exactly the table of its result, a blank line for a table without rows.", "quantifier": "every table and every table of cases, every parameters", "why_tests_cant": "The two programs are joined by a file; tests run them apart.", "anchors": ["metcalcpy/agg_stat_eqz.py:AggStatEventEqz.calculate_values", "metcalcpy/agg_stat_bootstrap.py:AggStatBootstrap.calculate_values"]}
{"id": "C115", "title": "Lines of the output files", "statement": "The output of agg_stat has a line for each row of the calculation, in order, with each value under the column of its name: first the fields of the first axis, then fcst_var, stat_value, stat_btcl, stat_btcu, nstats, then the fields that only the second axis has; fields an axis does not have are missing. With event equalization the rows are those of the equalized table. The same holds for agg_eclv (equalized by the column stat_name or by the time alone) and for agg_stat_bootstrap without equalization and with one axis. sum_stat writes exactly the table of its calculation, with equalization that of the equalized table (line type not sal1l2), and scorecard the rows of its calculation, with the option append_to_file 'True' after what is there.", "quantifier": "every table with rows, every request whose fields have different names that are no result columns", "why_tests_cant": "A value under the wrong column looks like a value; it must hold for all requests.", "anchors": ["metcalcpy/agg_stat.py:AggStat.calculate_stats_and_ci", "metcalcpy/agg_eclv.py:AggEclv.calculate_stats_and_ci", "metcalcpy/agg_stat_bootstrap.py:AggStatBootstrap.calculate_values"]}
{"id": "C116", "title": "Lines of partial sums are pooled by name", "statement": "If each line of type sl1l2 is the summary (total and means) of its own pairs of forecast and observation, every value agg_stat writes is the measure its stat_name says (FBAR, ME, RMSE, PR_CORR, ...), of all pairs of the lines of its point taken together; with and without bootstrap. Without bootstrap and with existing statistics the run succeeds. The same holds for the gradient scores of line type grad; the ensemble scores of line type ecnt are means weighted by the totals, RMSE and spread through their squares.", "quantifier": "every table of such lines, every request with one axis and without derived curves, every seed and number of iterations", "why_tests_cant": "Needs the name, the preparation of the line type, the selection of the point and the statistic at once, for all groups of pairs.", "anchors": ["metcalcpy/agg_stat.py:AggStat.calculate_value_and_ci", "metcalcpy/agg_stat.py:AggStat._calc_stats", "metcalcpy/agg_stat.py:AggStat._prepare_sl1l2_data", "metcalcpy/agg_stat.py:AggStat._prepare_ecnt_data"]}
{"id": "C117", "title": "Contingency lines are added up by name", "statement": "From lines of type ctc, cts or nbr_ctc every value agg_stat writes for a contingency score (PODY, FAR, CSI, ..., NBR_PODY, ...) is the textbook value of the counts of the lines of its point added up; so are the counts themselves (CTC_TOTAL, CTC_FY_OY, ...), the scores with logarithms (LODDS, SEDI, EDI, SEDS, EDS), BAGSS, HK and ODDS, the last two from rates with 7 decimals, and the base rate where no count is missing. A run over lines of type ctc, cts or mctc succeeds only if the lines of each point have the same ec_value, where they have the column.", "quantifier": "every table, every request with one axis and without derived curves", "why_tests_cant": "All scores, all splittings of the counts into lines.", "anchors": ["metcalcpy/agg_stat.py:AggStat._calc_stats", "metcalcpy/agg_stat.py:AggStat._prepare_ctc_data", "metcalcpy/util/nbrctc_statistics.py:calculate_nbr_pody", "metcalcpy/util/ctc_statistics.py:calculate_pody"]}
{"id": "C118", "title": "The bootstrap adds limits and changes no value", "statement": "Without bootstrap a run of agg_stat succeeds only if all statistics of points with lines exist. If a run without and a run with bootstrap succeed, with any seeds, iterations, threads and any of the known methods for the limits, they have the same rows, counts and values.", "quantifier": "every table, request with one axis and without derived curves, random generator, confidence level and number of threads", "why_tests_cant": "Quantifies over all states of the random generator.", "anchors": ["metcalcpy/agg_stat.py:AggStat._get_bootstrapped_stats", "metcalcpy/bootstrap.py:bootstrap_and_value", "metcalcpy/agg_stat.py:AggStat._calc_stats"]}
{"id": "C119", "title": "The order of contingency lines in the file", "statement": "Two tables with the same contingency lines in another order give equal outputs of agg_stat for the contingency scores, values and counts.", "quantifier": "every table with numeric counts and every permutation of it", "why_tests_cant": "All permutations.", "anchors": ["metcalcpy/agg_stat.py:AggStat.calculate_value_and_ci", "metcalcpy/agg_stat.py:AggStat._calc_stats"]}
{"id": "C120", "title": "Lines of anomalies, winds and gradients are pooled by name", "statement": "For lines of type sl1l2, sal1l2, val1l2, vl1l2, vcnt and grad, each the summary (total and means) of its own cases, every value agg_stat writes for a statistic of the type is the measure its stat_name says, of all cases of the lines of its point taken together; with and without bootstrap. Without bootstrap and with statistics of the type the run succeeds.", "quantifier": "every table of such lines, every request with one axis and without derived curves, every seed and number of iterations", "why_tests_cant": "Needs the name, the preparation of the line type, the selection of the point and the statistic at once, for all groups of cases.", "anchors": ["metcalcpy/agg_stat.py:AggStat.calculate_stats_and_ci", "metcalcpy/agg_stat.py:AggStat._calc_stats", "metcalcpy/util/vl1l2_statistics.py", "metcalcpy/util/vcnt_statistics.py", "metcalcpy/util/sal1l2_statistics.py"]}
{"id": "C121", "title": "agg_stat from file to file", "statement": "If the input file is a table of lines as in C120 or of contingency lines, the program agg_stat without event equalization that succeeds replaces its output file by a header and one line for each combination of the values of the request, in the order of the request; the line has the values of its point, the measure (or textbook score) of all cases of the lines of its point, and the number of these lines. No other file changes. Without bootstrap the program succeeds on lines as in C120.", "quantifier": "every content of the files, every request with one axis and without derived curves", "why_tests_cant": "From the bytes of one file to those of another: reading, grouping, statistics and writing at once.", "anchors": ["metcalcpy/agg_stat.py:AggStat.calculate_stats_and_ci", "metcalcpy/agg_stat.py:AggStat._calc_stats"]}
{"id": "C122", "title": "sum_stat from file to file", "statement": "If each line of the input file is the summary of its own cases and names a statistic of its line type (sl1l2, sal1l2, val1l2, vl1l2, grad), or is a contingency line and names a contingency score, the program sum_stat succeeds, its output has one row for each line, and the value of the row is the measure that the line names, of its own cases. No other file changes.", "quantifier": "every content of the files, without event equalization and without groups in the series values", "why_tests_cant": "From the bytes of one file to those of another.", "anchors": ["metcalcpy/sum_stat.py:SumStat.calculate_stats", "metcalcpy/sum_stat.py:SumStat.calculate_statistic"]}
{"id": "C123", "title": "The files of matched pairs hold each point of each day", "statement": "For arrays of matching shapes, each day with a forecast valid time gets a file named by lead and valid time, and no other file changes; the file of the last day with that name holds a header and one line for each point, whose words (if no text is empty or has blanks) are the values of the columns of a MET matched pair line. With fewer latitudes than longitudes the first file stops short with an IndexError and no other is written.", "quantifier": "all arrays of data, places and times, all texts, all contents of the directory", "why_tests_cant": "The column positions depend on the lengths of all texts, and the files on the set of all times.", "anchors": ["metcalcpy/contributed/blocking_weather_regime/Blocking_WeatherRegime_util.py:write_mpr_file"]}
{"id": "C124", "title": "MET files are read by season and day", "statement": "With files in the order of the days, each day gets the numbers of its file's grid, its initial and valid time, and its lead as hours, minutes and seconds of two digits at least; a missing file gives a grid of missing values and empty times; latitudes and longitudes are those of the first file that is there. No file at all, a number of files other than that of the days and a grid of another shape are refused.", "quantifier": "all lists of files, all contents of the files with equal grids, all numbers of seasons and days", "why_tests_cant": "The order of the reshaped arrays and the lead text must be right for every number of days and every lead.", "anchors": ["metcalcpy/contributed/blocking_weather_regime/Blocking_WeatherRegime_util.py:read_nc_met"]}
{"id": "C125", "title": "The elbow is the place where the curve lies deepest below its chord", "statement": "For at least two numbers of clusters the best numbers returned are exactly the places where the curve of sums of squared distances lies deepest below the straight line from its first to its last value, in increasing order, at least one; the distances are those from the line; the unit of the sums does not matter; neither end is chosen if the curve lies below the line anywhere.", "quantifier": "all curves", "why_tests_cant": "The minimum over all places and all curves, with square roots in the distances.", "anchors": ["metcalcpy/contributed/blocking_weather_regime/WeatherRegime.py:WeatherRegimeCalculation.run_elbow"]}
{"id": "C126", "title": "The file of regimes has one line for each day", "statement": "The text file holds one line for each day in the order of seasons and days with year, month, day and regime; the netCDF file holds the days since the first one, the date and the regime. No other file changes.", "quantifier": "all arrays of valid times and regimes of equal size, all contents of the directory", "why_tests_cant": "Every number of days and every valid time.", "anchors": ["metcalcpy/contributed/blocking_weather_regime/WeatherRegime.py:WeatherRegimeCalculation.write_K_means_file"]}
{"id": "C127", "title": "The full transform of a segment gives power, co-spectrum and quadrature spectrum at the right place", "statement": "For two fields of the same shape the result has eight arrays with an odd number of rows and columns, frequency and wavenumber zero in the middle. The entry for each frequency and wavenumber (positive wavenumbers eastward) is the power of the first field, that of the second, their co-spectrum and their quadrature spectrum, averaged over the latitudes; the other four arrays are zero. For even numbers of times and longitudes the last row holds the power of the first field, and zeros for the other three. Fields of different shapes with no axis of length one, and fields without times or longitudes, are refused.", "quantifier": "all fields with at least one time, latitude and longitude, all frequencies and wavenumbers in range", "why_tests_cant": "Four combinations of even and odd sizes, every size and every place.", "anchors": ["metcalcpy/contributed/spacetime/spacetime.py:mjo_cross_segment"]}
{"id": "C128", "title": "Cross spectra are bounded by the powers and have the symmetries of spectra of real fields", "statement": "At every place powers are not negative and the squares of both cross spectra together are at most the product of the powers. A field with itself has its power as co-spectrum and no quadrature spectrum (the last row of the finding of C127 aside); exchanging the fields exchanges the powers and the sign of the quadrature spectrum; opposite frequency and wavenumber have the same powers and co-spectrum and the opposite quadrature spectrum.", "quantifier": "all fields, all places", "why_tests_cant": "The inequality must hold for every field.", "anchors": ["metcalcpy/contributed/spacetime/spacetime.py:mjo_cross_segment", "metcalcpy/contributed/spacetime/spacetime.py:mjo_cross_segment_realfft"]}
{"id": "C129", "title": "The spectrum of a segment splits the variance, and a wave appears at its own place", "statement": "Over every frequency and wavenumber once, the powers add up to the mean of the squares, the co-spectra to the mean of the products and the quadrature spectra to zero. A single travelling wave has a quarter of the square of its amplitude at its own frequency and wavenumber and at the opposite place, and nothing elsewhere; eastward waves have wavenumbers of the sign of their frequency.", "quantifier": "all fields; all amplitudes, phases, frequencies strictly between 0 and the highest and wavenumbers below the highest", "why_tests_cant": "Identities over all sizes and all fields.", "anchors": ["metcalcpy/contributed/spacetime/spacetime.py:mjo_cross_segment"]}
{"id": "C130", "title": "The file written for a dataset holds the dataset", "statement": "Writing a dataset without a reference time or time dimension gives a file with the dimensions of the dataset, one variable for each dimension and each field and no other, the attributes of the dataset, the coordinates, and each field of floats or of integers with 32 or 64 bits with its type, dimensions, values and attributes. Small integers, truth values and times are stored as unsigned integers with 64 bits, modulo 2^64: a -1 comes out as 2^64 - 1. With a reference time, a dataset that has a field named forecast_reference_time is refused.", "quantifier": "all datasets with different names of dimensions and fields, numeric coordinates, and times for the dimension time", "why_tests_cant": "Every dataset: any number of dimensions, fields and attributes of any type.", "anchors": ["metcalcpy/vertical_interp.py:write_dataset"]}
{"id": "C131", "title": "Times are written as seconds since the first one, and nothing tells when that was", "statement": "The coordinates of time in the file are the seconds since the first time, within a microsecond, and exactly so for times in whole microseconds. The same dataset any number of seconds later gives the same file.", "quantifier": "all datasets, all times, all shifts by whole seconds", "why_tests_cant": "All times and all shifts.", "anchors": ["metcalcpy/vertical_interp.py:write_dataset"]}
{"id": "C132", "title": "The valid time becomes a dimension of every field", "statement": "With a time dimension asked for, the file also has a dimension valid_time of length one with a variable holding the seconds from the initial to the valid time; each other field gets that dimension before its own and keeps its values and attributes, if the valid time has no attributes. Attributes of the valid time are put on the field before it, where they can replace its own; if there is none, the program ends with an exception; without a valid or initial time as well.", "quantifier": "all datasets with a valid time and an initial time", "why_tests_cant": "Every order of the fields and all attributes.", "anchors": ["metcalcpy/vertical_interp.py:write_dataset"]}
{"id": "C133", "title": "The reference time is read from the name of the file as a time of the machine's own clock", "statement": "The variable forecast_reference_time, said to be in seconds since 1970, is the hour written as YYYYMMDDHH counted in seconds from 1970 by the calendar, less the offset of the machine's clock; the rest of the file is as without. Digits that are no date, and digits without an hour, are refused. The text is the part between the first two dots of the whole path; every exception while writing comes out as AttributeError.", "quantifier": "all datasets, all texts of hours in the years 1 to 9999, all offsets, all paths", "why_tests_cant": "The calendar over ten thousand years, every clock and every path.", "anchors": ["metcalcpy/vertical_interp.py:write_dataset", "metcalcpy/vertical_interp.py:main program"]}
{"id": "C134", "title": "The two versions of the paired equivalence test agree where both decide", "statement": "tost_paired of util/tost_paired.py gives the same result as tost_paired of util/utils.py where the paired differences have a spread and neither p-value is zero, and both end the program for arguments outside their ranges. The former also gives the verdict the p-values call for when one of them is zero, and raises ZeroDivisionError where there is no spread; the latter gives the outcome none in both cases. A result of the former holds, to 7 decimals, the t and p values against both bounds, the difference, the degrees of freedom, both confidence intervals, the bounds and the limits of the plot; a level that is missing or zero is 5 %, and with a spread the only failure is an unassigned outcome where the p-value of the difference equals the level and there is no equivalence.", "quantifier": "all sizes, means, deviations, correlations, bounds and levels, all distribution functions", "why_tests_cant": "Equality over all real arguments and all distribution functions.", "anchors": ["metcalcpy/util/tost_paired.py:tost_paired", "metcalcpy/util/utils.py:tost_paired"]}
{"id": "C135", "title": "The postfix of a file name is put before every dot", "statement": "replace_name puts an underscore and the postfix before every dot of a name: for a name with one dot that is before the extension, a name without a dot is unchanged, and for a name with several dots it is put in several times (so the documented 'before the extension' fails).", "quantifier": "all names and postfixes", "why_tests_cant": "Arbitrary texts with any number of dots.", "anchors": ["metcalcpy/validate_mv_python.py:replace_name"]}
{"id": "C136", "title": "Cleaning removes exactly the files of the output directories", "statement": "clean removes all files of the four output directories and changes nothing else; with the parameters that the module's documentation lists it empties two of them and ends with KeyError. delete_similar_files removes exactly the files of a directory whose names start with the name of the plot up to its first dot (files starting with a dot only if that part is not empty), which includes files of other plots.", "quantifier": "all disks, parameters, directories whose paths end with a slash and names without the special characters of patterns", "why_tests_cant": "All disks and all names.", "anchors": ["metcalcpy/validate_mv_python.py:clean", "metcalcpy/validate_mv_python.py:delete_similar_files"]}
{"id": "C137", "title": "The documents tested are the XML files changed in the period", "statement": "get_test_xml returns exactly the files directly in the input directory with the extension .xml whose day of change lies in the period, both ends included, each once and in ascending order of their paths. The period is from the given or else yesterday's date to the given or else today's date; a period that ends before it starts is refused with KeyError.", "quantifier": "all parameters, disks, clocks and dates", "why_tests_cant": "All disks and all dates.", "anchors": ["metcalcpy/validate_mv_python.py:get_test_xml", "metcalcpy/validate_mv_python.py:get_testing_period"]}
{"id": "C138", "title": "A run judges each plot and touches only the output directories", "statement": "For each selected document main writes a copy with exactly ten values replaced into the directory for documents and gives it to the batch program. If then neither the old nor the new image exists, or both can be read and have similarity 1, the plot is reported as unchanged and exactly the new document, the new image and the scripts and data with the plot's name are removed; if one of the images cannot be read a problem is reported and nothing is removed; if they differ the image of the differences is written and nothing is removed. Whatever happens, files outside the four output directories stay as they are if the batch program leaves them. A run that ends normally reports every selected document once, in order, by the name of its plot; images of different sizes end the run, and the documents after that are not reported.", "quantifier": "all documents, parameters, disks and images, all similarity functions and batch programs", "why_tests_cant": "All disks, all programs and all numbers of documents.", "anchors": ["metcalcpy/validate_mv_python.py:main"]}
{"id": "C139", "title": "Which histories of calls on a comparison of images succeed", "statement": "CompareImages refuses images that cannot be read with KeyError. A history of calls of its methods gives for each call what that call alone gives (the index, the difference image, the threshold image, the images with boxes) if no call asks for the threshold image after any call that made it, and none asks for the boxes in the second image again; every other history ends with ValueError at that call.", "quantifier": "all images of at least two numbers, all similarity functions, thresholds and drawings, all histories of calls", "why_tests_cant": "All histories of calls of any length.", "anchors": ["metcalcpy/compare_images.py:CompareImages"]}
{"id": "C140", "title": "The power of a correlation and what is found from it", "statement": "power_corr refuses calls in which not exactly one of correlation, size, power and level is missing (ValueError) and values outside their ranges (AssertionError); up to four observations the answer is NaN. The power is the probability from Fisher's z of the correlation against that of the critical correlation: it lies between 0 and 1, ignores the sign of the correlation, does not fall as the correlation gets stronger and, two-sided, does not fall as the level rises. One-sided it is the same for the levels a and 1 - a, so there it can fall as the level rises. A size, correlation or level that is found has, given back, exactly the power that was asked for; if none is found the answer is NaN.", "quantifier": "all real arguments, all symmetric distribution functions (with a density that falls away from zero for the strength), all symmetric quantile functions, all finders of zeros", "why_tests_cant": "All real arguments; monotonicity compares any two calls.", "anchors": ["metcalcpy/util/correlation.py:power_corr"]}
{"id": "C141", "title": "The Bayes factor of a correlation ignores the direction", "statement": "bayesfactor_pearson gives by the method of Ly the documented formula, which is positive, and two-sided by the method of Wetzels the integral of its source. It is the same for a correlation and its negative, and the same for every alternative: a one-sided alternative gives the two-sided factor (by the method of Ly, whichever was named), so 'greater' and 'less' are not told apart. Unknown names of alternatives and methods and correlations outside -1 to 1 are refused with AssertionError, a missing correlation or fewer than two observations give NaN, kappa 0 ends with ZeroDivisionError.", "quantifier": "all real correlations, sizes and kappas, all texts, all special functions that are positive where needed", "why_tests_cant": "All real arguments and all texts.", "anchors": ["metcalcpy/util/correlation.py:bayesfactor_pearson"]}
{"id": "C142", "title": "Shepherd's pi leaves out the rows far from the resamples", "statement": "bsmahal gives for each row the mean of its squared Mahalanobis distances from the resamples (by the inverse of the covariance matrix of each); a resample without spread ends the call, whatever the data, so data with spread may have no answer. A change of the units of either column changes no distance. shepherd gives the rank correlation of exactly the rows whose mean distance is below 6, and the flags of the others; series of different lengths are refused.", "quantifier": "all series of reals, all numbers of resamples and all draws", "why_tests_cant": "All draws of all resamples.", "anchors": ["metcalcpy/util/correlation.py:bsmahal", "metcalcpy/util/correlation.py:shepherd"]}
{"id": "C143", "title": "Functions of eof_comp hold the stated parts of the variance", "statement": "For data of two or more dimensions and at most as many functions as there are times and places, eof_comp (with covariance) gives orthonormal series along the chosen dimension and orthonormal patterns in the sizes of the other dimensions. The fractions lie between 0 and 1, fall, and each is the part of the sum of squares that the data have along its pattern; what the series and patterns leave out is one minus the sum of the fractions, and with all functions the fractions add up to one and every value of the data is the weighted sum of the functions. Data that are all zero have NaN fractions. Without covariance the result is that of the data standardised at each place, so units and zero of a place do not matter; a place without change is refused. With covariance means are not removed, so the zero does matter, and the second result is not, as documented, the singular values. A dimension that is not there, too many functions and one-dimensional data are refused.", "quantifier": "all sizes, all dimensions, all real data, all singular value decompositions", "why_tests_cant": "All arrays of all sizes and numbers of dimensions, and any decomposition that is one.", "anchors": ["metcalcpy/contributed/tropical_diagnostics/ccew_activity.py:eof_comp"]}
{"id": "C144", "title": "Patterns and components of the weather regimes give back the anomalies", "statement": "Calc_EOF removes from each day and place the mean and the straight line over the years, in the caller's own array, so a second call with the same array has the same result. If the singular values asked for are positive, the components have mean zero and variance one and are not correlated, and reconstruct_heights gives the anomalies up to the percentages that are left out, exactly if the other singular values are zero. With as many components as records (and at least as many places), which a comment says gives the data back, every value is NaN. More components than records or places, and numbers of patterns or components other than NUMPCS, are refused.", "quantifier": "all numbers of years, days and places, all real data, all singular value decompositions", "why_tests_cant": "All arrays and any decomposition that is one.", "anchors": ["metcalcpy/contributed/blocking_weather_regime/WeatherRegime.py:Calc_EOF", "metcalcpy/contributed/blocking_weather_regime/WeatherRegime.py:reconstruct_heights"]}
{"id": "C145", "title": "Tables of Matsuno modes hold every curve at every wavenumber", "statement": "For a positive depth and a wavenumber range other than zero, if no two columns would have the same name, matsuno_dataframe gives one column for each mode, named by mode and depth in a fixed order, and one row for each wavenumber from one end of the range to the other, whose values are those of the single curves there. West of zero there are values of the mixed, Rossby and westward gravity waves, east of zero of the others, at zero of none. A range of zero does not give as many rows as wavenumbers: the rows are multiplied with every column, with no values. A mode number given twice loses its name. matsuno_modes_wk has one such table for each depth, in the order in which the depths are first given, and ends as the first table that fails.", "quantifier": "all depths, mode numbers, latitudes, ranges and numbers of wavenumbers; any solver", "why_tests_cant": "All ranges, numbers of wavenumbers and lists of modes, and any root finder.", "anchors": ["metcalcpy/contributed/spacetime/matsuno_plot.py:matsuno_dataframe", "metcalcpy/contributed/spacetime/matsuno_plot.py:matsuno_modes_wk"]}
{"id": "C146", "title": "The table of a correlation changes only intervals and Bayes factors", "statement": "When corr finishes its table, numbers of the interval are rounded to the nearest hundredth (halves to the even one) and Bayes factors become texts, with an exponent if they are at least 10000 or at most 0.0001; all other cells, labels and names stay, and doing it again changes nothing. Limits stay in order, but a positive limit can become zero. Of several rows only the first Bayes factor gets the format, the others become plain texts; arrays there are refused. The table of corr has one row with the name of the method and fixed columns, with a Bayes factor for Pearson only and the p-value halved unless two sides are asked for; without a correlation all is NaN but the number of pairs and there is a Bayes factor for any method. The outliers that are documented are never there.", "quantifier": "all tables, all values, all methods and tails, all texts of numbers", "why_tests_cant": "All tables and all real values of the cells.", "anchors": ["metcalcpy/util/correlation.py:corr", "metcalcpy/util/correlation.py:_postprocess_dataframe", "metcalcpy/util/correlation.py:_format_bf", "metcalcpy/util/correlation.py:_get_round_setting_for"]}
{"id": "C147", "title": "A dataset is interpolated column by column, in the unit of its heights only", "statement": "Run on a dataset, the vertical interpolation program writes each field asked for once, with one value per grid point and new level, together with latitudes, longitudes and attributes of the input. A value between two levels, except in the top layer, lies on the line through both and depends on that column alone; with new levels in the unit of the heights a field that is linear in height is reproduced. In another unit it is not: for levels in km the heights in m are multiplied by 1000, so 1.5 km lies below a height of 1000 m. Unknown units count as equal, units of other quantities give no output. The valid time is passed on, the initial time only with it. Heights are computed from pressures only if the setting is on, the input type is pressure and the output type is height; otherwise the field of heights is used silently. A file that cannot be opened ends in a KeyError, an empty list of fields in an AttributeError.", "quantifier": "all settings, all datasets with any number of columns, levels and fields, all units", "why_tests_cant": "All columns, all levels and all combinations of settings and units.", "anchors": ["metcalcpy/vertical_interp.py:vertical_interp", "metcalcpy/vertical_interp.py:main"]}
{"id": "C148", "title": "Fields on pressure levels are interpolated to heights by the hypsometric equation", "statement": "With heights from pressures, a value between two levels, except in the top layer, lies on the line through both, where each level has the height that follows from the hypsometric equation with the pressure and geopotential of the ground in that column (zero if so configured, without a geopotential field) and the virtual temperatures. In a column whose surface pressure is missing, equal to the pressure of a level, or not above any of them, every value is missing.", "quantifier": "all settings, all datasets with heights from pressures, all functions for the virtual temperature", "why_tests_cant": "All columns of temperatures, humidities and surface pressures.", "anchors": ["metcalcpy/vertical_interp.py:read_required_fields", "metcalcpy/vertical_interp.py:height_from_pressure", "metcalcpy/vertical_interp.py:vertical_interp", "metcalcpy/vertical_interp.py:main"]}
{"id": "C149", "title": "Several arrays are bootstrapped with the same draws", "statement": "When several arrays are bootstrapped at once, every iteration takes the records of all arrays at the same indexes, so the row of each array is what it would be alone from the same state of the generator, and totals of resampled arrays add up whenever the arrays do. numpy arrays are accepted if and only if they all have the shape of the first; others raise ValueError. Sparse matrices pass the checks but can never be resampled. Several rows of a sparse matrix are refused only if there is a second matrix; matrices with entries at the same places are refused if a stored entry is zero, and some with entries at different places are accepted. Functions beyond the number of arrays are ignored; with fewer functions than arrays there are no values at all.", "quantifier": "all lists of arrays and functions, all generators, numbers of iterations, batch sizes, threads and block lengths", "why_tests_cant": "All draws of the generator and all lists of arrays.", "anchors": ["metcalcpy/bootstrap.py:_bootstrap_distribution_cbb", "metcalcpy/bootstrap.py:_bootstrap_sim_cbb", "metcalcpy/bootstrap.py:_generate_distributions_cbb", "metcalcpy/bootstrap.py:_validate_arrays", "metcalcpy/bootstrap.py:_needs_sparse_unification", "metcalcpy/bootstrap.py:sum", "metcalcpy/bootstrap.py:mean"]}
{"id": "C150", "title": "Settings of blocking and regimes are the variables of their label", "statement": "A blocking calculation takes each setting from the environment variable that has its label, or the documented default if that is not set, and is made if and only if the numbers are whole and the number of points to smooth is odd; weather regimes likewise. A text that does not spell a whole number, also an empty one, raises ValueError; an even number of points ends the program. Variables of one label never change the calculations of another label. The steps of a run are those put together with plus signs. The directory for regimes has no label, so all labels share it; the base directory must be set even if it is not used; and a run without steps has one step with an empty name.", "quantifier": "all environments and labels", "why_tests_cant": "All texts of variables, all labels.", "anchors": ["metcalcpy/contributed/blocking_weather_regime/Blocking.py:BlockingCalculation.__init__", "metcalcpy/contributed/blocking_weather_regime/WeatherRegime.py:WeatherRegimeCalculation.__init__", "metcalcpy/contributed/blocking_weather_regime/Blocking_WeatherRegime_util.py:parse_steps"]}
{"id": "C151", "title": "A run of the spectra program writes three separate files of what was asked for", "statement": "A run of the cross-spectra program that ends well has written three files in the output directory, under names that never coincide: the spectra of the rain of the model with the lower wind, with the upper wind and with the rain to verify, each computed from exactly the values within the latitudes and times of the settings, with frequencies per day, and all other files are as they were. The winds may have their latitudes in any order; rain and times are in ascending order. However a run ends, it has touched only these files, and a file is begun only when those before it are finished. Refuted: the warning about different latitudes is never printed; rain with descending latitudes keeps no latitude at all, since only the winds are sorted; an output path given as a text is cut to its first character.", "quantifier": "all settings, variables, existing files, and all functions for symmetric parts and spectra", "why_tests_cant": "All data and file histories, and every point at which a run can fail.", "anchors": ["metcalcpy/contributed/spacetime/cross_spectra.py"]}
{"id": "C152", "title": "Saved spectra hold what was passed, at the path asked for", "statement": "Saving spectra writes one file, in the given directory, that holds all values, the frequencies, the whole wavenumbers and the numbers and names of the parts; other files do not change. Refuted: wavenumbers that are not whole lose their fraction; an array without three axes is refused only after an existing file was replaced by an unfinished one; the function of the same name in the tropical diagnostics writes another file if the directory is not empty and does not end with a slash.", "quantifier": "all arrays, axes, names, directories and existing files", "why_tests_cant": "All paths and contents.", "anchors": ["metcalcpy/contributed/spacetime/spacetime_utils.py:save_Spectra", "metcalcpy/contributed/tropical_diagnostics/utils.py:save_Spectra"]}
{"id": "C153", "title": "Columns are found by name and nested lists are read in order", "statement": "The position of a column is that of the first one with exactly this name, and None if there is none. Flattening a nested list yields all its numbers from left to right, however they are nested; a text that is not empty ends it with an error after everything before it was yielded, an empty text is skipped.", "quantifier": "all lists of column names, all nested lists of any depth and size", "why_tests_cant": "Nesting and length are unbounded.", "anchors": ["metcalcpy/util/met_stats.py:get_column_index_by_name", "metcalcpy/bootstrap.py:flatten"]}
