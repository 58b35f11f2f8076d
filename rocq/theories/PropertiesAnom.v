(** Properties C35 and C43: anomaly correlations and spread/skill lines. *)
From Coq Require Import Reals Qreals.
From Verif Require Import PyBase ColumnModel BaseSpec RealSpec AggModel AggSpec
  Sl1l2Model Sl1l2Spec AnomModel AnomSpec AnomProofs.
Open Scope string_scope.
Open Scope Q_scope.

(** C35: scalar anomaly scores of aggregated lines are those of all raw cases pooled together. *)
Theorem C35_pooling : forall groups data columns,
  Summaries sal1l2_fields columns groups data ->
  Forall (fun '(name, stat, Measure) =>
      exists r, aggregated name stat data columns = Ok r /\ Measure (concat groups) r)
  [("anom_corr", calculate_anom_corr, AnomCorrOf); ("anom_corr_raw", calculate_anom_corr_raw, AnomCorrRawOf);
   ("rmsfa", calculate_rmsfa, RmsfaOf); ("rmsoa", calculate_rmsoa, RmsoaOf)].
Proof. exact C35_pooling_proof. Qed.
Print Assumptions C35_pooling.

(** C35: the same for one line without aggregation. *)
Theorem C35_single_line : forall b r columns,
  SummaryRow sal1l2_fields columns b r ->
  Forall (fun '(name, stat, Measure) => exists v, stat [r] columns false = Ok v /\ Measure b v)
  [("anom_corr", calculate_anom_corr, AnomCorrOf); ("anom_corr_raw", calculate_anom_corr_raw, AnomCorrRawOf);
   ("rmsfa", calculate_rmsfa, RmsfaOf); ("rmsoa", calculate_rmsoa, RmsoaOf)].
Proof. exact C35_single_line_proof. Qed.
Print Assumptions C35_single_line.

(** C35: so for genuine anomalies both correlations are in [-1,1]; the centred one is undefined
    exactly for constant anomalies, the uncentred one exactly for zero anomalies. *)
Theorem C35_scalar_range : forall groups data columns,
  Summaries sal1l2_fields columns groups data ->
  exists c w, aggregated "anom_corr" calculate_anom_corr data columns = Ok c /\
    aggregated "anom_corr_raw" calculate_anom_corr_raw data columns = Ok w /\
    (forall x, c = Some x \/ w = Some x -> -1 <= x <= 1) /\
    (c = None <-> Constant fc (concat groups) \/ Constant ob (concat groups)) /\
    (w = None <-> (forall p, In p (concat groups) -> fc p == 0) \/ (forall p, In p (concat groups) -> ob p == 0)).
Proof. exact C35_scalar_range_proof. Qed.
Print Assumptions C35_scalar_range.

(** C35: the vector anomaly correlation of aggregated lines is the vector correlation of the
    pooled cases, and lies in [-1,1]. *)
Theorem C35_vector_pooling : forall groups data columns,
  Summaries val1l2_fields columns groups data ->
  exists r, aggregated "val1l2_anom_corr" calculate_val1l2_anom_corr data columns = Ok r /\
    PublishedR (vector_corr (concat groups)) r /\ (forall x, r = Some x -> -1 <= x <= 1).
Proof. exact C35_vector_pooling_proof. Qed.
Print Assumptions C35_vector_pooling.

(** C35: the uncentred vector correlation is the one of the pooled cases; it is not rounded. *)
Theorem C35_vector_uncentred : forall groups data columns,
  Summaries vcnt_anom_fields columns groups data ->
  aggregated_R "vcnt_anom_corr_uncntr" calculate_vcnt_anom_corr_uncntr data columns
    = Ok (vector_uncentred (concat groups)) /\
  (forall x, vector_uncentred (concat groups) = Some x -> (-1 <= x <= 1)%R).
Proof. exact C35_vector_uncentred_proof. Qed.
Print Assumptions C35_vector_uncentred.

(** C35: on every table, consistent or not, what these functions return is a value in [-1,1] or
    no value; no exception escapes. *)
Theorem C35_clamped : forall data columns agg,
  (exists r, calculate_anom_corr_raw data columns agg = Ok r /\ forall x, r = Some x -> -1 <= x <= 1) /\
  (exists r, calculate_vcnt_anom_corr data columns agg = Ok r /\ forall x, r = Some x -> (-1 <= x <= 1)%R) /\
  (exists r, calculate_vcnt_anom_corr_uncntr data columns agg = Ok r /\
     forall x, r = Some x -> (-1 <= x <= 1)%R).
Proof. exact C35_clamped_proof. Qed.
Print Assumptions C35_clamped.

(** C35: the centred scalar correlation is at most one on every table... *)
Theorem C35_upper_only : forall data columns agg,
  exists r, calculate_anom_corr data columns agg = Ok r /\ forall x, r = Some x -> x <= 1.
Proof. exact C35_upper_only_proof. Qed.
Print Assumptions C35_upper_only.

(** ... but not at least minus one, and the vector correlation is not clamped at all. *)
Theorem C35_not_clamped_refuted :
  (exists data columns x, calculate_anom_corr data columns false = Ok (Some x) /\ x < -1) /\
  (exists data columns x, calculate_val1l2_anom_corr data columns false = Ok (Some x) /\ 1 < x).
Proof. exact C35_not_clamped_refuted_proof. Qed.
Print Assumptions C35_not_clamped_refuted.

(** C35: the centred VCNT correlation subtracts products of mean speeds instead of mean vectors:
    for uncorrelated vectors it can report -1. *)
Theorem C35_vcnt_centred_refuted :
  vector_corr turned_cases = Some 0%R /\
  (forall p, In p turned_cases -> f_speed p * f_speed p == dot_ff p /\ o_speed p * o_speed p == dot_oo p) /\
  aggregated_R "vcnt_anom_corr" calculate_vcnt_anom_corr
    [line_of vcnt_anom_fields turned_cases] (line_columns vcnt_anom_fields) = Ok (Some (-1)%R).
Proof. exact C35_vcnt_centred_refuted_proof. Qed.
Print Assumptions C35_vcnt_centred_refuted.

Example C35_case :
  Summaries sal1l2_fields (line_columns sal1l2_fields) anom_groups (map (line_of sal1l2_fields) anom_groups) /\
  Summaries val1l2_fields (line_columns val1l2_fields) wind_groups (map (line_of val1l2_fields) wind_groups) /\
  Summaries vcnt_anom_fields (line_columns vcnt_anom_fields) wind_groups
    (map (line_of vcnt_anom_fields) wind_groups) /\
  SummaryRow sal1l2_fields (line_columns sal1l2_fields) [(1, 2); (3, 5)] (line_of sal1l2_fields [(1, 2); (3, 5)]).
Proof. exact C35_case_proof. Qed.

(** C43: spread/skill lines are pooled with their bin counts. *)
Theorem C43_pooling : forall groups data columns,
  Summaries ssvar_fields (counted_by_bin_n columns) groups data ->
  Forall (fun '(name, stat, Measure) =>
      exists r, aggregated_ssvar name stat data columns = Ok r /\ Measure (concat groups) r)
  [("ssvar_fbar", calculate_ssvar_fbar, FbarOf); ("ssvar_obar", calculate_ssvar_obar, ObarOf);
   ("ssvar_fstdev", calculate_ssvar_fstdev, FstdevOf); ("ssvar_ostdev", calculate_ssvar_ostdev, OstdevOf);
   ("ssvar_pr_corr", calculate_ssvar_pr_corr, CorrOf); ("ssvar_me", calculate_ssvar_me, MeOf);
   ("ssvar_me2", calculate_ssvar_me2, Me2Of); ("ssvar_mse", calculate_ssvar_mse, MseOf);
   ("ssvar_rmse", calculate_ssvar_rmse, RmseOf); ("ssvar_bcmse", calculate_ssvar_bcmse, BcmseOf);
   ("ssvar_bcrmse", calculate_ssvar_bcrmse, BcrmseOf); ("ssvar_msess", calculate_ssvar_msess, MsessOf)].
Proof. exact C43_pooling_proof. Qed.
Print Assumptions C43_pooling.

(** C43: the correlation read through the anomaly names is the correlation of the pooled pairs. *)
Theorem C43_anomaly_correlation : forall groups data columns,
  Summaries ssvar_fields (counted_by_bin_n columns) groups data ->
  (forall c, In c ["fabar"; "oabar"; "foabar"; "ffabar"; "ooabar"] -> ~ In c columns) ->
  exists r, aggregated_ssvar "ssvar_anom_corr" calculate_ssvar_anom_corr data columns = Ok r /\
    CorrOf (concat groups) r.
Proof. exact C43_anomaly_correlation_proof. Qed.
Print Assumptions C43_anomaly_correlation.

(** C43: the spread is the root of the mean variance of the pooled cases. *)
Theorem C43_spread : forall groups data columns,
  Summaries spread_fields (counted_by_bin_n columns) groups data ->
  (forall v, In v (concat groups) -> 0 <= v) ->
  exists r, aggregated_ssvar "ssvar_spread" calculate_ssvar_spread data columns = Ok (Some r) /\
    SpreadOf (concat groups) (Some r) /\ 0 <= r.
Proof. exact C43_spread_proof. Qed.
Print Assumptions C43_spread.

(** C43: the standard deviation of the error is not pooled: the aggregation flag is dropped. *)
Theorem C43_estdev_refuted : exists groups data columns r,
  Summaries ssvar_fields (counted_by_bin_n columns) groups data /\
  aggregated_ssvar "ssvar_estdev" calculate_ssvar_estdev data columns = Ok r /\ ~ EstdevOf (concat groups) r.
Proof. exact C43_estdev_refuted_proof. Qed.
Print Assumptions C43_estdev_refuted.

(** C43: a table without bin counts cannot be aggregated. *)
Theorem C43_no_bin_count : forall name stat data columns,
  ~ In "bin_n" columns -> In name ["ssvar_fbar"; "ssvar_rmse"; "ssvar_spread"] ->
  aggregated_ssvar name stat data columns = Err KeyError.
Proof. exact C43_no_bin_count_proof. Qed.
Print Assumptions C43_no_bin_count.

Example C43_case : let columns := ["bin_n"; "fbar"; "obar"; "fobar"; "ffbar"; "oobar"] in
  Summaries ssvar_fields (counted_by_bin_n columns) anom_groups (map (line_of ssvar_fields) anom_groups) /\
  (forall c, In c ["fabar"; "oabar"; "foabar"; "ffabar"; "ooabar"] -> ~ In c columns) /\
  Summaries spread_fields (counted_by_bin_n ["bin_n"; "var_mean"]) [[1; 4]; [2]]
    (map (line_of spread_fields) [[1; 4]; [2]]).
Proof. exact C43_case_proof. Qed.
