# Machine-checked model of METcalcpy

The code base under study is METcalcpy (Python), read as text from `/repo`.
Everything here is a Coq 8.16.1 development in `rocq/theories` (logical name `Verif`).

## Conventions

* **Shallow, branch-by-branch models.**  Each Python function becomes a Gallina function of
  the same shape.  Exceptions are values: `res A := Ok a | Err e`, with one constructor of
  `exn` per Python exception class that matters.  A Python `try ... except (E1, E2): x`
  becomes `catch [E1;E2] body x`; an exception class not in the list propagates.
* **Numbers.**  A finite floating-point number is a rational, so data and all results of
  `+ - * /`, `floor` and comparison are modelled in `Q` (exact arithmetic).  IEEE rounding,
  overflow to infinity and signed zero are *not* modelled.  Division by zero is an explicit
  error branch.  Functions that need a square root or a logarithm are modelled in `R`
  on top of the same rational column sums.
* **Missing data.**  A table cell is a number, a missing value (NaN/None) or a string.
* **Tables.**  A 2-D numpy array with a column-name array is a list of rows plus a list of
  column names; a missing column is an explicit branch.
* **File layout.**  `XModel.v` holds definitions with source citations, `XSpec.v` holds the
  independent specification (textbook formulas, sets, permutations) which does not use the
  model, `XProofs.v` holds lemmas, `PropertiesX.v` holds only the property theorems, each
  closed with `exact`, followed by `Print Assumptions` and by an `Example` showing that
  a concrete non-trivial case meets its hypotheses.
* **Findings.**  Where the code violates its documentation, the faithful model is kept, and a
  `..._refuted` theorem gives a computed witness; the part that does hold is proved for all
  inputs.

## Trusted base

* Coq's kernel (and `vm_compute` for concrete witnesses).
* What `Print Assumptions` prints under each theorem.  Theorems over `Q`, `Z`, lists and
  strings are closed under the global context.  Theorems over `R` depend on the standard
  library's real-number axioms (`ClassicalDedekindReals.sig_forall_dec`,
  `ClassicalDedekindReals.sig_not_dec`, `FunctionalExtensionality.functional_extensionality_dep`)
  and sometimes on `Classical_Prop.classic`.
* The reading of the Python source: the tie between model and code is the citation on each
  definition.
* numpy/pandas primitives as described in comments: boolean masks, `isin`, `nansum`, `sort`,
  `unique`, `interp`, `itertools.product`, `np.percentile`-style interpolation.
* Not modelled: IEEE rounding and overflow, the text of CSV fields and the reading of YAML (files as lists of lines are modelled in FileModel.v, C111 to C115), logging, printing,
  process pools (only the arithmetic of how iterations are split), the random generator
  (its output is universally quantified), scipy distribution functions
  (an arbitrary function parameter where needed), reading netCDF files (writing them is modelled as records in WriteModel.v, C130 to C133).
* Functions of the package without a model: `plot_*`, `standar_plot` and `test_plot_pressure_lev` (plots),
  `read_tcrmw` and `compute_interpolation_weights` (reads a file; only logs), the class of `util/read_file.py` (reads files),
  `get_timestr` (labels of plots), `median` and `std` of `bootstrap.py` (calls of numpy, not used),
  `__str__` and `__repr__` of `BootstrapResults`, `_init_out_frame` of `agg_eclv.py` (an empty table), and all of
  `contributed/zonal_meridional/recipes.py`, which imports modules that are not in the repository.
  `scratch/` and `test/` are not modelled.

## The log of wrong programs

`seeded/LOG.jsonl` has a line per edit of the model that was tried in a scratch copy.

* `theorems_failed` are the theorems that rest on a lemma whose proof no longer goes through.  This
  is what breaks in the build.  It does not show that each of these statements is false of the
  edited model: some could have another proof.
* `"survived": true` marks an attempt after which no theorem of the property named in the claim
  failed.  Lines of other properties can still be listed as failed.
* A claim that begins with `none` says why the edit changes nothing a user can observe.
* Until 15 November, 21:30, the script that runs the edits wrote no line for survivors, so the
  older part of the log showed fewer of them than there were.  The attempts found in its output
  without a line were run again against the present theorems: most had been compared with the
  wrong property, three change nothing observable.  Edits after which the model did not
  compile have no line.
* The script finds what a theorem rests on by the names in proofs, within the files it imports.
  Early runs did not look at imports and so listed some theorems of unrelated files.  Later
  three lines of `BootModel.v` had the same fault for lemmas that share a name.  These 36 names
  were removed from 8 lines.
* Until 15 November, 22:50, the script did not tell apart lemmas of the same name in different
  files.  Lists of theorems in older lines can be incomplete where such a lemma is used.  Two lines
  of `LookupModel.v` named theorems of another file; they were removed and the edits run again.
* Coverage is uneven.  `PublishModel.v`, `PowerModel.v` and `ValModel.v` have few lines: more edits
  had been prepared for them and were not run, so their theorems are the least tested.
* A `note` marks five edits that broke nothing at first and were caught after the theorems had
  changed.

## Plan per property

| id | model | how proved |
|----|-------|-----------|
| C01 | `round_half_up` on Q with floor | floor inequalities, `lia`/`lra` |
| C02 | cell/column/sum functions | induction on rows, `Permutation` |
| C03 | sequential filters | `filter` composition, induction on conditions |
| C04 | CTC functions branch by branch | independent formulas on pooled counts; case analysis on zero/missing |
| C05 | same | `nra`-style inequalities on the formulas lifted through the rounding lemma |
| C06 | same | via C02's permutation and additivity lemmas |
| C07 | same | specialise C04 |
| C08 | same, exceptions as values | case analysis, exact characterisation of the raising inputs |
| C09 | `calculate_economic_value` | field identities, monotonicity in the ratio |
| C10 | SL1L2 functions plus preparation step | weighted-mean algebra by induction over rows |
| C11 | same, sqrt part in R | Cauchy-Schwarz by induction |
| C12 | `event_equalize` on rows of cells | set characterisation, induction over permutations |
| C13 | same | from C12 |
| C14 | `event_equalize_against_values` | filter lemma |
| C15 | permutation functions | induction over fields; NoDup, length, index formula |
| C16 | `calc_derived_curve_value` | case analysis, list induction |
| C17 | name building/recognition on strings | prefix lemmas |
| C18 | `perfect_score_adjustment` | case analysis |
| C19 | `tost_paired`; the Student cdf and quantile are function parameters with the properties of a distribution (scipy not modelled) | case analysis, real inequalities; Cauchy witness for the refutations |
| C20 | longitude conversions | `Qfloor` modulo, insertion-sort permutation |
| C21 | block index generation; random starts universally quantified | modular arithmetic, induction |
| C22 | percentile interpolation and limits | monotonicity of sorted interpolation |
| C23 | batch loop arithmetic | induction |
| C24 | MODE count ratios | filter partition counting |
| C25 | MODE area/volume ratios | filter partition sums |
| C26 | pct ROC and AUC | induction over bins |
| C27 | pct common statistics | algebraic identity |
| C28 | nbrcnt | `nra` |
| C29 | piecewise linear interpolation | induction over nodes |
| C30 | difficulty index | bounds |
| C31 | `_calculate_diff_sig_emc`, `_calculate_diff_sig_ncar` of the scorecard | rounding to even compared with even thresholds; uniqueness of rounding; symmetry of the interval |
| C32 | `vertical_interp` of one column, reals, NaN as a missing value | invariant of the weight loop: closed form of every weight; uniqueness of the bracketing layer |
| C33 | `runs_test`, `norm.cdf` a parameter | the result depends on two counts and the number of runs; list induction; order statistics for the median |
| C34 | acf/autocovariance, `autocor_coef` | sums over pairs, `2ab <= a*a+b*b`; factorisation of the difference to the slope |
| C35 | anomaly correlations | case analysis on the clamps; counterexample |
| C36 | weighted averages | induction |
| C37 | wind speed/direction with a real `arctan2` | `atan` identities, Lagrange identity, rounding bounds |
| C38 | `calc_series_sums` for all ten line types and `aggregate_field_values` on data frames with index labels | pooled means row by row; loop invariant over the valid/lead times: untouched rows, then the new ones |
| C39 | SL1L2 functions, exceptions as values | case analysis over the exception monad |
| C40 | grad_statistics, AggStat preparation | sums over concatenated groups |
| C42 | vl1l2/vcnt statistics, AggStat preparation | weighted-mean algebra over concatenated groups |
| C43 | ssvar statistics and preparation | same |
| C44 | the four standard-error functions; None and NaN distinguished | C34's algebra, monotone square roots, quantile uniqueness |
| C41 | `calculate_mcts_hss_ec` | invariant of filling the table: entries not yet written are zero, so its sum and its diagonal sum grow by each count |
| C46 | `height_from_pressure` of one column, real logarithm, virtual temperature given | induction over levels with the running height |
| C47 | `calculate_lodds`, `calculate_sedi`, `calculate_edi`, `calculate_seds`, `calculate_eds`, logarithms in `R` | exact values by case analysis on the signs; monotone quotients of logarithms |
| C48 | `calculate_bagss`; Lambert's W an argument | the adjusted misses solve a decreasing equation, so they are unique and bracketed by misses and false alarms |
| C49 | `sort_by_thresh`: the two regular expressions as matchers, number parsing an argument, stable insertion sort | sortedness, permutation and stability of insertion sort; matchers decided on operator prefixes |
| C50 | `calculate_ctc_roc` on top of C49 | pooled totals are unchanged by the appended columns and by permutation |
| C51 | `equalize_axis_data` on frames (columns and rows), with the change of the caller's frame | loop invariant: output so far = concatenation of the selected rows with keys; C12 for each statistic |
| C52 | `perform_event_equalization`; order of `set` an argument | merged dictionaries are permutations of each other; C13 for another order of values |
| C53 | `agg_stat_event_equalize.py` | as C51, C52 |
| C54 | `agg_stat_eqz.py` | C14 inside two loops |
| C55 | driver of `agg_stat.py`: filters, sorting, points | filters against a predicate on rows; uniqueness of the stable order; induction over points; sums exchanged for the count |
| C56 | the same | counterexamples and consequences of C55 |
| C57 | derived curves of `agg_stat.py`: names, variable of the operation, points, pairing | general invariant of the derived loop over a predicate on values; uniqueness of the named point |
| C58 | the check of repeated cases | counting distinct cases; counterexamples |
| C59 | bootstrapped, significance and equivalence curves | uniqueness of the sorted order of distinct cases |
| C60 | `calculate_stats_and_ci` for two axes | composition of the above; induction over group numbers |
| C61 | `agg_eclv.py`: ratios, filters, thresholds, values, rows | characterisation of the float range and of sorted distinct thresholds; composition with C09 |
| C62 | `scorecard.py`: points, derived series, pairing, scores, output rows | soundness of one pair composed with the lemmas on derived points of C57; orders by time as in C56 |
| C63 | `agg_stat_bootstrap.py`: cases, rows of points, samples, places of results, output rows | the output frame as a function of the point, updated by induction over keys and values of the independent variable |
| C64 | `sum_stat.py`: selection of rows by groups, values of rows, dropped columns | tables as projections on kept columns; selection of rows as filters, by induction over values and points |
| C65 | `Blocking.py`: GIBL, groups of blocked longitudes | scan over twice the circle; groups as chains of blocked longitudes, induction over the scan |
| C66 | `Blocking.py`: IBL, mean heights north and south of the central latitude | NaN as None; Python slices with negative bounds; whole parts towards zero |
| C67 | `Blocking.py`: CBL, latitude of the greatest standard deviation and its moving average | reals for standard deviation and cosine; argmax with NaN by induction; positions modulo 360 |
| C68 | `WeatherRegime.py`: regimes by frequency | clustering and argsort as arguments; permutations, induction over the relabelling |
| C69 | `Blocking_WeatherRegime_util.py`: reordering of forecast regimes | unset cells as None; best match by correlation in the reals |
| C70 | `WeatherRegime.py`: counts in windows | slices of lists; sums over regimes by induction |
| C71 | `WeatherRegime.py`: anomalies | nested arrays as lists; mean of the years; reshape as concatenation |
| C72 | `lonFlip` | slices and np.roll on lists; the storage of the longitudes shared or not; places of distinct meridians |
| C73 | `smooth121_1D` | loop that writes the output place by place, NaN as None; induction over the loop |
| C74 | `get_symmasymm` | rows of cells; selection by latitude; induction over the halves |
| C75 | `window_cosbell`, `taper_vector_to_zero` | loop that multiplies both ends; slices; reals with cos; induction over the loop |
| C76 | `rem_120day_mean` | loop with slices of days; seconds as integers; window of steps equals window of seconds |
| C77 | `mjo_cross`, loop over segments | the while loop as an inductive relation (it may not end) |
| C78 | `mjo_cross`, averages and coherence | quadruples of reals for one wavenumber; the cone c² + q² ≤ px·py is closed under sums and multiples |
| C79 | `mjo_cross`, order of rows and columns | np.roll, reversal and repetition on lists; arithmetic modulo the number of longitudes |
| C80 | `zonal_mean`, `meridional_mean` | weighted sums of reals; weights positive between 60 and 90 degrees |
| C81 | `compute_wind_components` | rotation by an angle; identities of sine and cosine |
| C82 | `zonal_wave_coeffs`, `zonal_wave_contributions` | rfft and irfft as sums of reals; sums of cosines by telescoping with the sine of half the step |
| C83 | `zonal_wave_ampl_phase`, `zonal_wave_covariance` | polar form of coefficients; orthogonality of waves |
| C84 | `wave_skill` | invariant of the double loop of stores into the argument; Cauchy-Schwarz for the bound |
| C85 | `rem_seas_cyc`, `rem_seas_mean`, choice in `waveact` | groups as filters; sums of deviations; duplicates by `nodup` |
| C86 | `waveproj`, `waveact` | places of a grid as list; exactly one match per place for strictly sorted coordinates |
| C87 | `corr`, `remove_na`, scipy's `pearsonr` | methods as cosines of two lists; Cauchy-Schwarz; equivariance of means, medians and bent means under affine maps |
| C88 | `bicor` | sorted lists are unique; middle values lie within the median distance, so outliers keep all order statistics in use |
| C89 | `percbend` | counting values beyond the sorted distance shows the bent mean is defined; refuted by a literal |
| C90 | `compute_esci` | `tanh` by exponentials, strictly increasing and odd; inverse by `ln` |
| C91 | `BootstrapResults` arithmetic | monotone maps keep or turn the limits; signs of rationals |
| C92 | `constructor_env_variables` | a text as a list of pieces; each step of the loop fills in one name; induction over pieces and names |
| C93 | `parse_config`, PyYAML's resolver for scalars | state of the loader class as a list of tags; findings as theorems |
| C94 | `kelvin_mode`, `mrg_mode`, `eig_n_0`, helpers | both formulas are the positive root of one quadratic; monotone in its coefficients |
| C95 | `er_n`, `eig_n`, `wig_n`, `dispersion` | intermediate value theorem; the cubic is negative at the gravity wave, the mixed wave and the root of the mode before |
| C96 | `kf_filter_mask` | each step is a mask (relation closed under composition); limits independent of the data; wave frequencies are the roots of C94 |
| C97 | `kf_filter` | orthogonality of cosines in two dimensions; a pure wave has one coefficient |
| C98 | `perform_3dim_spectral_filtering` | exchanging halves twice as a permutation of places; the loop over cells as one mask; each wave has two coefficients; uniqueness of the line of least squares |
| C99 | `regress_vector_onto_eofs` | the squared distance splits into that of the solution and a square; dependent patterns by Cauchy-Schwarz with equality |
| C100 | `rmm`, `regress_2dim_data_onto_eofs` | the anomalies of C76 joined to one vector for each time; equal anomalies give equal vectors |
| C101 | `omi`, `regress_3dim_data_onto_eofs` | a factor and a line go through filter, selection, projection and standard deviation; uniqueness of the line of least squares |
| C102 | `bandpass_filter_3D` | the packed transform as sums of cosines and sines, orthogonality of waves; linearity of each step and uniqueness of the line of least squares |
| C103 | `zon_avg_variance` | sums of squares are 0 only if each square is |
| C104 | `calc_tau_MJO` | convolutions as sums over all offsets, projections as sums over points, the standard deviation times a factor |
| C105 | `calc_wpower_MJO` | the recurrence from the equator solved as a product, signs of its factors; products with gaps |
| C106 | `make_maki` | ordinals of dates month by month, the loop over months by induction, windows of daily records as index ranges, least elements |
| C107 | `_calc_stats_derived`, `bootstrap_and_value` | the bootstrap of row numbers simulated beside that of the rows, by induction on batches and threads; quantiles of the negative numbers by counting |
| C108 | `run_Calc_Blocks` | counting around the circle and the ends of groups by induction on the row; groups matched to ends by induction on the days; invariant of the groups used for the tracking; the array by induction on the groups |
| C109 | `run_Calc_Blocks` | the first turn for the year takes the whole chain, later turns do nothing; other years do not touch it |
| C110 | `run_Calc_Blocks` | the same lemmas; concrete runs for the refutations |
| C111 | `AggStat`, `AggEclv`: reading, `to_csv`, append_to_file | files as a state; a run is a function of its input file and one write; induction on the list of runs |
| C112 | all programs | the only write is the last statement, except for the branches of empty tables |
| C113 | `parse_bool` and all programs | every run depends on the switch through one truth value |
| C114 | `AggStatEventEqz`, `AggStatBootstrap` | reading back a written table; rows kept are rows of the table |
| C115 | columns and lines of the outputs | every row of the calculation has the fields of its axis (induction on the loops); each column finds its value |
| C116 | `_calc_stats`, `_prepare_*_data` and all statistic functions by name, inside the driver | composition of the driver (C60) with the pooling theorems of each family; no statistic raises KeyError |
| C117 | the same for contingency lines; `nbrctc_statistics.py` | the order in which the driver sorts lines does not change column totals |
| C118 | `_get_bootstrapped_stats` inside the driver | the first value of the bootstrap is the statistic of the unsampled rows |
| C119 | driver and contingency scores | a permutation of the table is a permutation of each point's rows |
| C120 | the driver of agg_stat with the statistic functions of all families of partial sums by name | each measure depends only on the cases, not on their order; the order of lines chosen by the driver does not matter |
| C121 | agg_stat: reading, driver, statistics, writing | composition of C115 with C120 and C117 |
| C122 | sum_stat: reading, the lookup of functions by name, writing | each statistic of one line is that of its cases; composition with C64 |
| C123 | `write_mpr_file`: names, widths, order and contents of the files; '%.4f' is a parameter | induction over the days in their order; a lemma on the words of padded texts |
| C124 | `read_nc_met`: first file, times, leads, reshape; netCDF4 and strptime are parameters | reshape by rows; decimal texts of quotients |
| C125 | `run_elbow` after the clusterings: line, curve, distances, minimum | the cross product is minus the depth times a positive number |
| C126 | `write_K_means_file`: both types of file | the words of padded texts; mapM over the days |
| C127 | `mjo_cross_segment`: transform as sums, shift, reversal, rows and columns in the four cases of parity | congruence of places modulo the sizes; one table for all four cases |
| C128 | same, with `cross` of `mjo_cross_segment_realfft` | the cone of spectra of C78; signs of sums |
| C129 | same | orthogonality of cosines for integer numbers of waves |
| C130 | `write_dataset`: dimensions, coordinates, fields with types, attributes, as records for xarray and netCDF4 | induction over dimensions and fields, names stay different |
| C131 | same: microseconds of `utcfromtimestamp`, ties to even | bounds of rounding; whole seconds keep parity |
| C132 | same with `create_time_dim`, the variable `var` of the loop as state | lookup by name; filter of the fields |
| C133 | same with `forecast_reference_time`, and the end of the program (610-611, 689-703) | calendar as a relation one hour later, induction over hours, days, months and years |
| C134 | `tost_paired` of util/tost_paired.py, reals, distribution as parameter | both reduced to the same closed form |
| C135 | `replace_name`, texts | induction on the text; the parts between dots |
| C136 | `clean`, `delete_similar_files`, a disk as a table of paths | what dropping paths does to every other path; pattern = prefix without slash |
| C137 | `get_testing_period`, `get_test_xml`, clock and date reading as parameters | selection by filter, extension by the last dot, sortedness |
| C138 | `main`, batch program and images as parameters | the rewriting of a document as a fold; an invariant over the documents for untouched files |
| C139 | `CompareImages` as a state machine, images as lists | induction over the history with three flags for what has been made |
| C140 | `power_corr`, distributions and `brenth` as parameters | monotony of arc tangent and critical correlation; for two sides the falling density in three cases |
| C141 | `bayesfactor_pearson`, special functions as parameters | exponential of the sum of logarithms; case analysis |
| C142 | `bsmahal`, `shepherd`, draws as parameters | Gram and Schmidt for two columns gives the inverse covariance matrix; covariances under a change of units |
| C143 | `eof_comp`, decomposition as parameter | sums over orthonormal columns and rows; offsets of indices in row order |
| C144 | `Calc_EOF`, `reconstruct_heights`, decomposition as parameter | detrended series add up to zero, so do the columns; n orthonormal columns in n dimensions leave no vector of ones |
| C145 | `matsuno_dataframe`, `matsuno_modes_wk`, merges of tables | distinct wavenumbers make each inner join one to one; induction over the modes; keys of a dictionary in the order of first use |
| C146 | the end of `corr`, `_postprocess_dataframe`, `_format_bf`, `_get_round_setting_for` | rows of all columns as loops over single columns; rounding is the only nearest hundredth |
| C147 | the program of `vertical_interp.py` between reading and writing, `vertical_interp` for all columns, conversion of units | every value written is that of one column; then C32 |
| C148 | the same with `read_required_fields` and `height_from_pressure` for all columns | heights of a column by C46, then as C147 |
| C149 | `_bootstrap_distribution_cbb` and its helpers for several arrays, `_validate_arrays` with numpy and sparse arrays, `sum`, `mean` | one set of indexes per batch, by induction over batches and jobs; agreement with the model of one array |
| C150 | the constructors of `BlockingCalculation` and `WeatherRegimeCalculation`, `parse_steps`, Python's `int` of a text | `int` reads exactly the texts of a grammar, by induction; no ending of a variable name is an ending of another, so labels cannot meet |
| C151 | the program `cross_spectra.py` from the data sets on; symmetric parts and spectra are parameters | values as sets of (time, latitude, value), kept by slices and by a stable sort; file names differ by length or by two characters before a common ending; one invariant per file written |
| C152 | both functions `save_Spectra`, `os.path.join` | by cases of the path; integers of C by `Z.quot` |
| C153 | `get_column_index_by_name`; `flatten` on nested lists, as yielded values and an end | induction over positions and over nested lists |
| C45 | `calculate_mtd_revision_stats` | pairs of a list with separators; C33 and C34 |

Properties are appended as the model grows; `MANIFEST.json` records the status of each.

## Findings

Behaviour of the code that contradicts its documentation, each with a theorem:

* C04/C08: BASER, the plain contingency totals and ODDS (see the `_raises`, `_missing_cell` and
  `_refuted` theorems of `PropertiesCtc.v`).
* C10/C11/C39: ESTDEV ignores the aggregation flag, FE is not prepared for aggregation, BCMSE can
  be negative, the published RMSE can be below the published MAE, SI raises ZeroDivisionError,
  MSE raises ValueError on text cells.
* C15: the METviewer permutation of a list whose last entry is empty.
* C19: `tost_paired` fails with an unbound variable on the boundary and reports 'none' for a
  p-value of zero.
* C24: six MODE count statistics (FSM_FSA, FSU_FSA, FSM_ASM, OSM_ASM, object CSI and PODY) do not
  compute what they document; FSM_FSA can exceed 1; missing flag columns raise AttributeError.
* C25: three MODE area statistics (FSM_ASM, OSA_FSA, area FAR) do not compute what they document;
  a perfect forecast has an undefined area CSI and PODY; every 3-D volume statistic is None.
* C22: a distribution with only missing values raises instead of having no limits; one missing
  resample breaks the pivotal method; the limits of economic value curves are computed only when
  the curve itself has undefined points (the test is inverted); the sign of a significant result
  can contradict the interval.
* C23: with several threads the number of resamples is rounded up; zero iterations raise.
* C29: unsorted nodes are accepted although the documentation says they are rejected, and such a
  function does not reproduce its node values.
* C30: a negative spread is accepted (`numpy.all` is compared the wrong way round), missing members
  are counted as below the threshold, and a zero mean removes the spread term.
* C28: the observed rate is not multiplied by the line totals, so O_RATE, UFSS and AFSS of several
  points are wrong; a line with a perfect FSS loses its share of the reference score.
* C36: SPREAD_PLUS_OERR is computed from SPREAD_OERR; a line with a missing score still contributes
  its total to the weights.
* C26: the ROC area of a table without any case is 0.5; with only events or only non-events the
  exception is not caught.
* C27: Brier score, Brier skill score and resolution call a data-frame method on a number and raise
  AttributeError for every proper table; a bin with missing non-event counts pushes the base rate
  above one.
* C35: the scalar anomaly correlation is clamped only from above and VAL1L2_ANOM_CORR not at all;
  VCNT_ANOM_CORR is not the centred correlation.
* C37: wind directions are never converted from radians to degrees, so they are in [0,4] or
  [356,360], and 360 itself occurs; the direction error divides by an unweighted observed speed and
  vanishes for more than 225000 cases.
* C42: VL1L2_FSPD and VL1L2_OSPD are missing from the table of columns to weight, so their aggregated
  values are not those of the pooled cases.
* C43: ESTDEV of spread/skill lines ignores the aggregation flag.
* C33: the runs test raises ZeroDivisionError when all values lie on one side or only two differ
  from the threshold; the empty result has the key `'mean_value '` with a blank.
* C34: `autocor_coef` has `sx` where the least-squares formula has `sx*sx`, so it equals the slope
  only in three special cases and changes with the unit; `acf` of a series with gaps can exceed 1.
* C44: standard errors inherit this (doubling the data multiplies one by the square root of 2);
  one NaN makes the standard error of a mean 0; None raises TypeError; series constant up to the
  last value raise ZeroDivisionError.
* C45: MTD autocorrelations at lag 2 or more mix revisions; the "p-value" of the autocorrelation is a
  constant over the square root of the length.
* C41: the category pairs are read from the first line only, so lines that list the categories in
  another order are added up in the wrong places; missing columns raise IndexError.
* C31: a scaled advantage that rounds to -100 has no scorecard class; for means of opposite sign both
  orders of two models favour the first; error measures other than RMSE and RMSVE count as
  larger-is-better; single cases raise ZeroDivisionError.
* C32: in the top layer the weight of the upper level is overwritten; a target exactly on a level is
  NaN; levels listed from top to bottom give the sum of both ends.
* C46: the thickness of the layer that contains the ground is not reduced to its part above the
  ground; a surface pressure equal to a level's makes the whole column NaN.
* C47: LODDS catches neither ValueError nor ZeroDivisionError, so text among the counts raises.
  SEDI and EDI use the hit rate rounded to 7 decimals: with 10^8 hits and one miss SEDI is undefined.
  EDS does not depend on false alarms: forecasting the event always has an EDS of 1.
* C48: no BAGSS without misses or false alarms, so perfect forecasts have none.
* C49: a text threshold with "<=" is read as "<" and a text that begins with "=", so it sorts before
  all letters; a column of plain numbers raises TypeError; an empty table raises UnboundLocalError;
  the caller's table gets two additional columns.
* C50: the ROC rows are in the order of the threshold texts (">=10" before ">=2"), although the lines
  were sorted by value before; "==2" and "2" are two rows with part of the lines each.
* C51: only the last series variable restricts the rows, so rows with unlisted values of the others stay;
  numeric series variables are compared with texts and leave nothing; without the columns of variable
  and statistic every statistic adds another copy; without series the whole table is repeated for each
  statistic and the caller's frame gets a key column.
* C52: axes with the same series are not equalized against each other; values of a variable on both
  axes are taken from the second axis only; a fixed value given as text is split into characters.
* C53: rows are repeated for every series variable; the second value of a fixed variable is used for the
  next fixed variable; the step for both axes uses the series of the second axis twice; date-time series
  values are cut at their colons.
* C14: a table that already has a key column raises ValueError.
* C56: values that look like numbers select nothing from a column of texts; only the first forecast
  variable is calculated; joined series values are not aggregated (the test looks at the names of the
  variables); series variables that are no columns raise a KeyError.
* C57: if the words of a title name several points (thresholds and leads with the same numbers), a derived
  value mixes points of other leads; a derived curve of a group of a variable that is not the last one has
  no rows at all, without an error.
* C58: a derived curve that names a value with a time of day has no result; groups are checked on average
  only; spread and RMSE are not exempt from the check.
* C59: equivalence tests (ETB) never give a value in the output of aggregated statistics.
* C61: one curve without data (or without events) stops the whole run with a TypeError; groups of values
  select no rows; the request for the base rate is ignored (`!= 0 or != 1` is always true); the output has
  no confidence limits, with the pivotal method no rows at all; the line type of probabilities always raises.
* C62: the scorecard checks only the first series for repeated cases; the values of both series are paired by
  their position in order of time, so series with other cases of the same number give a score. Series of
  different length stop the whole run with a TypeError. The significance of every statistic is judged as that
  of the first one in the request. RATIO, SS and ETB give rows without a value.
* C63: with several statistics the object driver writes all results to the rows of the first one. A series value
  that is a number stops the run with an IndexError, since numbers are compared with the texts of the output
  frame. The result of a group is written to the row of one of its members, or there is an IndexError. Rows are
  not selected by the forecast variable. Rows are taken with isin, so repeated cases in a sample make no
  difference, and samples are drawn from the cases of earlier values of the independent variable too.
* C64: a joined series value (`A;B`) is never aggregated by sum_stat, since the test looks for `:` in the values of
  the independent variable and in the *names* of the series. A group among the independent values keeps only rows
  whose cell is literally the listed text, so lead times (numbers) select nothing. A KeyError (unknown statistic,
  no series_val_2, unknown line type) ends the calculation silently: the later rows are written without a value.
* C65: a group of blocked longitudes that crosses the first longitude is dropped when neither side has the wanted
  size, although the same group elsewhere is marked (the test `len(btfin)/2 < crit` assumes that a group is counted
  twice). The option `ibl_dist` is read and never used. Grids other than 360 longitudes are not treated as a circle.
* C66: one missing height, or one shift that reaches over the pole (empty slice, NaN), removes the block of a
  longitude, because `np.max` over the shifts is NaN. Any method other than `PH` silently gives no blocks. For an odd
  `limits` the northern half has one row more than the southern.
* C67: a latitude without any height at a longitude (all days missing) is taken as the central blocking latitude,
  because `np.argmax` returns the position of the first NaN. The weights are fixed to 360 longitudes: every other
  grid raises ValueError.
* C69: `reorder_fcst_regimes_correlate` takes for every observed regime the best forecast regime; the order need not
  be a permutation. Days of a forecast regime that is nobody's best match keep the uninitialised values of
  `np.empty`.
* C71: `weights_detrend` detrends an array of zeros and then overwrites it: the trend is never removed. With
  two-dimensional latitudes `len(lons)*len(lats)` is the square of the number of rows, so that reshaping raises
  ValueError unless the grid is a square.
* C72: `lonFlip` rolls the data by the length of the wrong half: with unequal halves the values are assigned to
  wrong meridians. If `lon.values` shares its storage the eastern longitudes appear twice, the second time plus 360.
* C73: `smooth121_1D` writes `array_out[0] = np.nan` for a NaN at any place, and raises IndexError for a last value
  that follows a NaN.
* C74: from south to north the rows given by `get_symmasymm` are those of the southern hemisphere in their order, from
  the pole to the equator; the latitudes selected for them go from the equator to the pole.
* C76: `rem_120day_mean` counts steps of the length of the first one; with irregular times (gaps) the mean is not that
  of the last 120 days.
* C77: segments of `mjo_cross` start `segLen + segOverLap - 1` apart: a positive `segOverLap` leaves times out instead of
  overlapping. The test `ntLast > ntim - 1` drops a segment that ends with the series. With
  `segOverLap <= 1 - segLen` the loop never ends.
* C79: for `segLen` not a multiple of four the frequency axis of `mjo_cross` does not fit to the transform: one row too
  many, labelled with 1/2, repeats the frequency zero (remainder 2 or 3), or ValueError (remainder 1).
* C80: `meridional_mean` checks `lat1` and `lat2` but always averages from 60 to 90 degrees.
* C82: `zonal_wave_contributions` raises ValueError for an odd number of longitudes and for any proper choice of
  `waves`; if as many waves as exist are given in another order the contributions belong to other waves. With
  `fftpkg='xrft'` it ends in AttributeError, since the branch tests for 'xarray'.
* C83: `zonal_wave_ampl_phase` doubles the amplitude of the shortest wave (half the number of longitudes), which counts
  only once. `zonal_wave_covariance` always raises NameError (`dimvar`).
* C84: `wave_skill` stores the skill in a view of its argument, so that the first time of every forecast line of the
  caller's array is overwritten. For a single forecast hour or a single forecast line it raises IndexError, since
  `squeeze` drops the axis.
* C85: whether the seasonal cycle or the mean is removed is decided by days of the year, but the cycle is computed by
  month and day: February 29 2020 and March 1 2021 count as the same day, and all anomalies become 0.
* C86: for data with latitudes from north to south the projection is empty, and the activity is 0 everywhere.
* C89: the percentage bend correlation divides by a distance that is 0 if four fifths of the values equal the median;
  the infinities become -1 and 1, so that [0, 0, 0, 0, 1] has a defined correlation.
* C92: variables are filled in one after the other, so that a value that mentions a variable of the same text is filled in
  again.
* C93: plain texts with a variable on the first line are filled in without the tag that is documented to be needed; the
  loader of the whole process is changed, even by a call that raises ValueError.
* C96: `kf_filter_mask` with only one of both depths set to -9999 uses memory that was never written (`np.empty`); equal limits of the wavenumber keep all wavenumbers instead of one; if the frequency of the deeper wave is negative, frequency 0 is kept.
* C97: reversing the wavenumber axis of `rfft2` moves every wavenumber by one: eastward wavenumber k is treated as k-1, westward k as k+1 and the zonal mean as -1; of an odd number of times `kf_filter` returns one less.
* C98: `perform_3dim_spectral_filtering` exchanges the halves of the spectrum twice with `fftshift` and `np.roll`, which is the identity only for even sizes: for an odd number of times half of a wave is kept for each neighbouring frequency within the limits, so waves inside the limits are halved and waves outside survive; equal limits of period or wavenumber give NaN corners and keep nothing.
* C100, C101: `rmm` and `omi` check that data and patterns have the same coordinates with `np.all(a == b)` on xarray coordinates. xarray first reduces both to the labels they share, so the check never fails, and fields on another grid of the same size are projected by position without notice.
* C101: `omi` takes the pattern `doy - 1`. With patterns for 365 days, as made without leap days, the 31st of December of a leap year raises IndexError and no index is computed.
* C102: `bandpass_filter_3D` uses `scipy.fftpack.rfft`, which returns real and imaginary parts in turn, with the frequencies of `fftfreq`, which are those of the complex transform. Entry k belongs to about k / 2 periods, so the filter keeps about twice the periods asked for. With daily values and limits of 20 and 96 days a wave of 30 days is removed and one of 150 days kept.
* C102: `detrend(…, overwrite_data=True)` writes the detrended data into the caller's array. The same holds for the filter of C98.
* C104: `calc_tau_MJO` divides the coefficients by their standard deviation once and multiplies with the data again, so the stress grows with the square of the flux. Points missing at the 11th time, and points without columns in the filters, come back unfiltered. A record of fewer than 11 times raises IndexError.
* C105: `calc_wpower_MJO` computes the structure of the Kelvin wave at the middles of steps, not at the latitudes of the data, and by the trapezoidal rule, whose solution changes its sign at every step far from the equator (on 2.5 degrees beyond about 9 degrees). Latitudes all south of the equator raise IndexError.
* C106: `make_maki` steps by months from the 91st day but labels the values with first days of months. Unless the 91st day is the first of a month it raises ValueError or labels each value with the month after its own. A record from the 1st of January has the 1st of April as its 91st day, but in a leap year the 31st of March.
* C107: the value of a derived curve without bootstrap is rounded to five digits, with bootstrap it is not: a difference of 0.000004 is 0 without and 0.000004 with bootstrap. In `_calc_stats_derived` the handler of ValueError that would use the statistic of the curve is never reached: without a column stat_name, `np.where(...)[0][0]` raises IndexError, which the caller does not catch.
* C109: `block_time` of run_Calc_Blocks is not the duration of a block: a block has at least five groups whatever the option says, and the option is compared with the number of groups left in the year (with block_time 7, a chain of five days is a block if other groups follow in the year, and none at the end of the year).
* C110: the center of a group that crosses the first longitude is not its center (median of the longitudes as numbers): for longitudes 349 to 8 it is 349, and one degree to the east it is 9, so a block that moves by one degree a day is dropped as travelling 340 degrees. The longitudes are used as positions (line 254), so longitudes from -180 on put a block that crosses the first one in the wrong place. A period without groups raises IndexError, and one without two groups within two days TypeError, instead of zeros; so does a day blocked at all longitudes (IndexError).
* C111: with `append_to_file: True` as a truth value in the parameter file (YAML) the output is overwritten, not extended: the code compares with the text 'True'. If the first run into a new file has the option, the file never gets a header. A first run on a table without rows writes a blank line in place of a header. Runs with other series variables are appended under the header of the first run.
* C112: scorecard and sum_stat given a table without rows overwrite the output with the bare header of the input (scorecard even with append_to_file) and then raise ValueError. scorecard without derived series ends successfully, writes nothing and leaves the output of an earlier run.
* C113: texts such as 'false', 'no' or 'FALSE' for event_equal switch the equalization on.
* C114: agg_stat_bootstrap with event_equal always raises AttributeError: `AggStatEventEqz.calculate_values` returns None (lines 314-316). By then the output file has the equalized table. If equalization keeps no rows, agg_stat_eqz writes a file without columns, which agg_stat_bootstrap cannot read (EmptyDataError).
* C116: if line_type is not given for partial-sum lines, agg_stat does not multiply the means by the totals first, but the statistics still divide by the sum of the totals: FBAR of lines with means 2 and 7 and totals 3 and 1 is written as 9/4 instead of 13/4.
* C117: agg_stat raises ValueError for contingency lines of one point that differ in ec_value, for all scores, also those that do not use it.
* C118: with bootstrap a misspelled statistic is not noticed: agg_stat catches and prints the KeyError of the lookup and writes rows with counts and without values. An unknown `method` for the confidence limits gives rows without values and without any message.
* C120: the mean wind speeds VL1L2_FSPD and VL1L2_OSPD written by agg_stat are wrong as soon as a point has more than one line.
* C122: sum_stat does not import `sal1l2_statistics` (nor those of the SSVAR and MCTS families), so ANOM_CORR, ANOM_CORR_RAW, RMSFA and RMSOA are a KeyError there. It is caught outside the loop over the lines: from the first such line on the output has no values, and the program reports success.
* C123: `write_mpr_file` checks only the valid time of the forecast. `read_nc_met` gives a day whose observation file is missing empty times, so the lines of such a day lack three columns and every later value (line type, place, forecast, observation) stands three columns too far to the left.
* C124: `read_nc_met` assigns masked arrays to a plain array, so a masked (missing) value of a grid becomes the number that marks it in the file, for instance -9999.
* C124: a valid time half an hour before the initial time gives the lead text -13000: minus one hour and thirty minutes.
* C125: with `numi` 2 the distance is 0/0, no optimal number is found and no error is raised.
* C126: a day with a missing file has an empty valid time. The text file then has a line with the regime alone where the year should stand; the netCDF branch first removes the old file and then ends with a ValueError. A type that is neither text nor netcdf writes nothing, silently.
* C127: for even numbers of times and longitudes `mjo_cross_segment` copies the highest frequency to the last row for the first field's power only (`STC[0, NT, :]` where the other branch has `STC[:, NT, :]`): the last row of the second power and of both cross spectra is zero.
* C128: `mjo_cross_segment` averages conj(Y)*X, `mjo_cross_segment_realfft` averages conj(X)*Y: with the same description their quadrature spectra, and so the phases made from them, have opposite signs.
* C130: `write_dataset` stores every field of a type it does not list (int8, int16, bool, datetime64) as uint64: numbers below zero become huge.
* C131: `write_dataset` writes the times of a dataset as seconds since the first one and does not write when that was: files of different days are the same.
* C132: with `create_time_dim` the attributes of the field valid_time are set on the variable created before it (overwriting its long_name or units), and if valid_time is the first field the name `var` is not bound.
* C133: the reference time is `datetime(...).timestamp()`, the local time of the machine, while the units say seconds since 1970-01-01 00:00 (UTC): on a machine east of Greenwich it is too small. The text of the hour is the second part of the whole path between dots, so a data directory such as ./data breaks it. The handler of exceptions calls `to_netcdf` of a netCDF4 file, which does not exist: every exception becomes AttributeError.
* C134: the two functions `tost_paired` (util/utils.py and util/tost_paired.py) report different outcomes for very strong differences (p-value 0: "none" against "diff_eqv" or "diff_no_eqv"), and one of them divides by zero without a spread.
* C135: `replace_name` puts the postfix before every dot, not only before the extension (plot.v1.png becomes plot_py.v1_py.png).
* C136: with the parameters listed in the documentation of validate_mv_python.py `clean` empties two directories and then ends with KeyError (output_data_dir is not listed); `delete_similar_files` for plot_1 also deletes the files of plot_10.
* C138: images of different sizes raise ValueError, which is not caught: the run ends and the remaining documents are not checked.
* C139: the methods of `CompareImages` for the threshold image and for the second image fail with ValueError when the image has already been made (`not` of an array), for instance when an image is saved and then shown.
* C140: `power_corr` squares the critical value, so one-sided the levels a and 1 - a have the same power: above 1/2 the power falls as the level rises (level 9/10 has less power than 1/2).
* C141: `bayesfactor_pearson` accepts one-sided alternatives ('greater', 'less') and gives the two-sided factor for all of them, also for the opposite direction.
* C142: `bsmahal` ends with LinAlgError whenever one resample has no spread, which for short series happens by chance (three points on no line, drawn as three times the same point).
* C143: `eof_comp` does not remove means for the covariance matrix, so adding a constant changes its functions; its second result, documented as singular values, is the fractions of variance; one-dimensional data end with IndexError.
* C144: `Calc_EOF` overwrites the caller's array; and the comment of `reconstruct_heights`, that NUMPCS = nt gives the data back, fails: detrending makes a singular value zero, whose component is 0/0 (NaN in exact arithmetic, noise of rounding otherwise).
* C145: with a wavenumber range of zero every merge of `matsuno_dataframe` multiplies the rows (N to the power of the number of columns); a mode number given twice (or mode 0, whose EIG column has the name of the n=0 wave) gets names with `_x` and `_y`, so its columns are not found by name.
* C146: the table of `corr` never has the documented column 'outliers' of Shepherd's method; without a correlation it has a column 'BF10' for every method; an interval that excludes zero can be shown as reaching it (0.004 becomes 0.0); `_postprocess_dataframe` formats only the first Bayes factor of a column, as the conversion to text hits the others first.
* C147: the conversion of units in `vertical_interp` is inverted: heights are multiplied by the size of the unit of the new levels over that of their own unit, where the inverse is needed, so levels in km on heights in m are all below the ground. Any output type other than 'height' silently compares the new levels with the field of heights.
* C149: `_validate_arrays` accepts sparse matrices, but resampling them always fails: the indexes have two dimensions, which scipy refuses. The check of several rows is inside the loop over the other arrays, so a single matrix escapes it, and the check of alignment counts stored entries, so explicit zeros mislead it both ways.
* C150: `WeatherRegimeCalculation` looks up `SCRIPT_OUTPUT_BASE` before it knows whether the default is needed, so that `WR_OUTPUT_FILE_DIR` alone gives a KeyError. That variable is the only one without a label. An even number of points calls `exit()`, so that the program ends with status 0. `parse_steps` returns `['']` without steps.
* C151: `any(latA - latB)` in `cross_spectra.py` subtracts aligned latitudes, so that it is always zero and the warning is never printed. Only the winds are sorted by latitude: rain from north to south keeps no latitudes. `pathout[0]` of a text is its first character. The third spectrum is called with segments for the number of steps per day of the configuration, although its frequencies are scaled for 2.
* C152: `save_Spectra` opens (and so empties) the file before it looks at the array. Wavenumbers are stored as integers. The function in the tropical diagnostics adds no slash to the directory.
* C153: `flatten` in `bootstrap.py` recurses without end into texts. Callers in `pstd_statistics.py` use the None for a missing column as an index, which numpy takes for a new axis; nothing is raised there.
* C38: contingency counts cannot be aggregated at all (the column list is passed as the column name,
  and the comparison triggers a warning that is an error here); anomaly lines keep the values of their
  first line; a missing mean counts as zero; a perfect neighbourhood line is left out of the reference
  of FSS; a valid/lead combination without lines makes the whole aggregation raise; with two joined
  values the new rows share the index label 0 and the first ones can disappear; joined lead times are
  labelled with the first of them only.
