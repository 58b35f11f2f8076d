(** Properties C44 and C45: standard errors of series and statistics of revision series. *)
From Coq Require Import Permutation Reals Qreals.
From Verif Require Import PyBase ColumnModel BaseSpec AggSpec Sl1l2Spec BootSpec
  SeriesModel SeriesSpec StdErrSpec StdErrProofs.
Open Scope string_scope.
Open Scope Q_scope.

(** C44: standard error of the mean of a series of numbers, in every case. *)
Theorem C44_mean : forall l,
  ((length l < 2)%nat -> compute_std_err_from_mean (numbers l) = Err ValueError) /\
  ((2 <= length l)%nat -> ~ Spread l \/ length l = 2%nat ->
     compute_std_err_from_mean (numbers l) = Ok (StdErr (Some 0%R) 0 0 (Z.of_nat (length l)))) /\
  ((3 <= length l)%nat -> Spread l ->
     (forall e, autocor_coef (map Some l) = Err e -> compute_std_err_from_mean (numbers l) = Err e) /\
     forall a, autocor_coef (map Some l) = Ok (Some a) ->
       (a == 1 -> compute_std_err_from_mean (numbers l) = Err ZeroDivisionError) /\
       (~ a == 1 -> compute_std_err_from_mean (numbers l) =
          Ok (StdErr (Some (inflation a * plain_error (sample_variance l) (length l))%R) (flag_of a) a (Z.of_nat (length l))))).
Proof. exact C44_mean_proof. Qed.
Print Assumptions C44_mean.

(** C44: a reported standard error is at least the one of independent values and less than 15 times it;
    the flag is raised exactly for a coefficient that is not a correlation. *)
Theorem C44_bounds : forall l r, (3 <= length l)%nat -> Spread l -> compute_std_err_from_mean (numbers l) = Ok r ->
  exists s, se r = Some s /\ (0 < plain_error (sample_variance l) (length l) <= s)%R /\
    (s < 15 * plain_error (sample_variance l) (length l))%R /\
    (ratio_flag r = 1%Z <-> impossible (ar_1 r)) /\ (ratio_flag r = 1%Z \/ ratio_flag r = 0%Z) /\
    (ratio_flag r = 1%Z -> s = plain_error (sample_variance l) (length l)).
Proof. exact C44_bounds_proof. Qed.
Print Assumptions C44_bounds.

(** C44: adding a constant to all values does not change it. *)
Theorem C44_shift : forall l c r, compute_std_err_from_mean (numbers l) = Ok r ->
  exists r', compute_std_err_from_mean (numbers (map (fun v => v + c) l)) = Ok r' /\
    se r' = se r /\ ratio_flag r' = ratio_flag r /\ ar_1 r' == ar_1 r /\ se_len r' = se_len r.
Proof. exact C44_shift_proof. Qed.
Print Assumptions C44_shift.

(** C44: but changing the unit does: doubling every value multiplies it by the square root of two. *)
Theorem C44_scale_refuted : exists l r r' s s',
  compute_std_err_from_mean (numbers l) = Ok r /\ se r = Some s /\
  compute_std_err_from_mean (numbers (map (fun v => 2 * v) l)) = Ok r' /\ se r' = Some s' /\
  (0 < s)%R /\ (s' = sqrt 2 * s)%R /\ s' <> (2 * s)%R.
Proof. exact C44_scale_refuted_proof. Qed.
Print Assumptions C44_scale_refuted.

(** C44: the standard error of the sum is that of the mean times the number of values; both fail alike. *)
Theorem C44_sum : forall data,
  (forall e, compute_std_err_from_mean data = Err e -> compute_std_err_from_sum data = Err e) /\
  (forall r s, compute_std_err_from_mean data = Ok r -> se r = Some s ->
     compute_std_err_from_sum data =
       Ok (StdErr (Some (s * INR (length data))%R) (ratio_flag r) (ar_1 r) (se_len r))).
Proof. exact C44_sum_proof. Qed.
Print Assumptions C44_sum.

(** C44: a series that is constant up to its last value fails. *)
Theorem C44_last_value_raises : forall c z k, (2 <= k)%nat -> ~ c == z ->
  compute_std_err_from_mean (numbers (repeat c k ++ [z])%list) = Err ZeroDivisionError.
Proof. exact C44_last_value_raises_proof. Qed.
Print Assumptions C44_last_value_raises.

(** C44: missing values are not ignored: [None] fails, and one NaN makes the standard error zero. *)
Theorem C44_missing : forall data, (2 <= length data)%nat ->
  (In PyNone data -> compute_std_err_from_mean data = Err TypeError) /\
  (In NaN data -> ~ In PyNone data ->
     compute_std_err_from_mean data = Ok (StdErr (Some 0%R) 0 0 (Z.of_nat (length data)))).
Proof. exact C44_missing_proof. Qed.
Print Assumptions C44_missing.

(** C44: the standard error of the median is that of the values present, from the quartiles. *)
Theorem C44_median : forall data,
  compute_std_err_from_median_no_vif data = compute_std_err_from_median_no_vif (numbers (present data)) /\
  (forall w, QuartileRange (present data) w -> 0 < w -> (3 <= length (present data))%nat ->
     compute_std_err_from_median_no_vif data =
       Ok (StdErr (Some (quartile_error w (length (present data)))) 0 0 (Z.of_nat (length (present data))))) /\
  ((forall w, QuartileRange (present data) w -> ~ 0 < w) \/ (length (present data) < 3)%nat ->
     compute_std_err_from_median_no_vif data = Ok (StdErr (Some 0%R) 0 0 (Z.of_nat (length (present data))))).
Proof. exact C44_median_proof. Qed.
Print Assumptions C44_median.

(** C44: with the inflation factor it is multiplied by that factor when nothing is missing. *)
Theorem C44_median_inflated : forall l w a,
  QuartileRange l w -> 0 < w -> (3 <= length l)%nat -> autocor_coef (map Some l) = Ok (Some a) -> ~ a == 1 ->
  compute_std_err_from_median_vif (numbers l) =
    Ok (StdErr (Some (inflation a * quartile_error w (length l))%R) (flag_of a) a (Z.of_nat (length l))).
Proof. exact C44_median_inflated_proof. Qed.
Print Assumptions C44_median_inflated.

(** C44: missing values are not ignored there either: it fails for [None] and is NaN for NaN. *)
Theorem C44_median_inflated_missing_refuted : forall data w a,
  QuartileRange (present data) w -> 0 < w -> (3 <= length (present data))%nat ->
  autocor_coef (map Some (present data)) = Ok (Some a) -> ~ a == 1 ->
  (In PyNone data -> compute_std_err_from_median_vif data = Err TypeError) /\
  (In NaN data -> ~ In PyNone data -> exists r, compute_std_err_from_median_vif data = Ok r /\ se r = None).
Proof. exact C44_median_inflated_missing_refuted_proof. Qed.
Print Assumptions C44_median_inflated_missing_refuted.

Example C44_case : (3 <= length falling)%nat /\ Spread falling /\
  (exists a, autocor_coef (map Some falling) = Ok (Some a) /\ a == 1 # 3 /\ ~ a == 1) /\
  QuartileRange [1; 2; 3; 4; 6] 2 /\ present [Num 1; NaN; Num 2; PyNone; Num 3; Num 4; Num 6] = [1; 2; 3; 4; 6] /\
  exists a, autocor_coef (map Some [1; 2; 3; 4; 6]) = Ok (Some a) /\ ~ a == 1.
Proof. exact C44_case_proof. Qed.

(** C45: at lag one the autocorrelation of revisions pairs values of the same revision only. *)
Theorem C45_within_revisions : forall norm_cdf rows r,
  calculate_mtd_revision_stats norm_cdf rows (Some 1%Z) = Ok r -> (2 <= length rows)%nat ->
  exists q, auto_cor_r r = Some q /\ Rounded2 (Q2R (revision_acor rows)) q.
Proof. exact C45_within_revisions_proof. Qed.
Print Assumptions C45_within_revisions.

(** C45: so it does not depend on the order in which the revisions appear. *)
Theorem C45_order : forall norm_cdf rows rows' r r', (2 <= length rows)%nat ->
  Permutation (revisions rows) (revisions rows') ->
  (forall i, of_revision i rows = of_revision i rows') ->
  calculate_mtd_revision_stats norm_cdf rows (Some 1%Z) = Ok r ->
  calculate_mtd_revision_stats norm_cdf rows' (Some 1%Z) = Ok r' ->
  auto_cor_r r = auto_cor_r r'.
Proof. exact C45_order_proof. Qed.
Print Assumptions C45_order.

(** C45: at lag two it pairs the end of one revision with the beginning of the next, so the order of
    the revisions matters. *)
Theorem C45_lag_two_refuted : exists rows rows',
  Permutation (revisions rows) (revisions rows') /\ (forall i, of_revision i rows = of_revision i rows') /\
  forall norm_cdf, exists r r' q q',
    calculate_mtd_revision_stats norm_cdf rows (Some 2%Z) = Ok r /\ auto_cor_r r = Some q /\
    calculate_mtd_revision_stats norm_cdf rows' (Some 2%Z) = Ok r' /\ auto_cor_r r' = Some q' /\ ~ q == q'.
Proof. exact C45_lag_two_refuted_proof. Qed.
Print Assumptions C45_lag_two_refuted.

(** C45: the runs test is applied to all values one after the other, across revisions. *)
Theorem C45_runs : forall norm_cdf rows lag r t,
  calculate_mtd_revision_stats norm_cdf rows lag = Ok r -> rows <> [] ->
  Quantile (in_order rows) (1 # 2) t ->
  exists q, ww_run r = Some q /\
    Rounded2 (norm_cdf (runs_statistic (above t (in_order rows)) (below t (in_order rows)) (runs_of (sides t (in_order rows))))) q.
Proof. exact C45_runs_proof. Qed.
Print Assumptions C45_runs.

(** C45: the "p-value" of the autocorrelation depends on the numbers of rows and revisions only, is at
    most 0.06 and is zero for long series. *)
Theorem C45_p_value : forall norm_cdf rows lag r,
  calculate_mtd_revision_stats norm_cdf rows lag = Ok r -> rows <> [] ->
  exists q, auto_cor_p r = Some q /\
    let n := (length rows + length (revisions rows) - 1)%nat in
    Rounded2 (revision_p n) q /\ 0 <= q <= 6 # 100 /\ ((158 <= n)%nat -> q == 0).
Proof. exact C45_p_value_proof. Qed.
Print Assumptions C45_p_value.

(** C45: the remaining cases. *)
Theorem C45_other_cases : forall norm_cdf rows lag,
  calculate_mtd_revision_stats norm_cdf [] lag = Ok (RevisionStats None None None) /\
  (rows <> [] -> in_order rows = [] -> calculate_mtd_revision_stats norm_cdf rows lag = Err ValueError) /\
  (in_order rows <> [] -> forall l, (l < 0)%Z ->
     calculate_mtd_revision_stats norm_cdf rows (Some l) = Err IndexError) /\
  (in_order rows <> [] -> ~ Spread (in_order rows) -> forall l, (0 <= l)%Z ->
     calculate_mtd_revision_stats norm_cdf rows (Some l) = Err ZeroDivisionError).
Proof. exact C45_other_cases_proof. Qed.
Print Assumptions C45_other_cases.

Example C45_case : revisions two_revisions = ["A"; "B"] /\ in_order two_revisions = [1; 2; 5; 4; 7; 3] /\
  within two_revisions = [(1, 2); (2, 5); (4, 7)] /\ Quantile (in_order two_revisions) (1 # 2) (7 # 2) /\
  forall norm_cdf, exists r, calculate_mtd_revision_stats norm_cdf two_revisions (Some 1%Z) = Ok r.
Proof. exact C45_case_proof. Qed.
