(** Properties C33 and C34: runs tests and autocorrelations of series. *)
From Coq Require Import Reals Qreals Qabs.
From Verif Require Import PyBase ColumnModel BaseSpec AggSpec Sl1l2Spec BootSpec
  SeriesModel SeriesSpec SeriesProofs.
Open Scope string_scope.
Open Scope Q_scope.

(** C33: with enough values on both sides of the threshold the test reports the number of runs,
    their expectation and variance, and the normalised statistic; otherwise it fails. *)
Theorem C33_test : forall norm_cdf x alternative threshold t,
  In alternative alternatives -> known x <> [] -> ThresholdOf threshold (known x) t ->
  let p := above t (known x) in let q := below t (known x) in let r := runs_of (sides t (known x)) in
  (EnoughRuns p q -> exists d,
     runs_test norm_cdf x alternative threshold = Ok d /\
     In ("runs", OInt (Z.of_nat r)) d /\
     (exists m, In ("mean_value", ORat m) d /\ m == runs_mean p q) /\
     (exists v, In ("variance", ORat v) d /\ v == runs_var p q) /\
     In ("statistic", OReal (runs_statistic p q r)) d) /\
  (~ EnoughRuns p q -> runs_test norm_cdf x alternative threshold = Err ZeroDivisionError).
Proof. exact C33_test_proof. Qed.
Print Assumptions C33_test.

(** C33: a reported number of runs is at least two, at most the number of used values, and at most
    one more than twice the smaller side. *)
Theorem C33_run_bounds : forall norm_cdf x alternative threshold t d r,
  In alternative alternatives -> known x <> [] -> ThresholdOf threshold (known x) t ->
  runs_test norm_cdf x alternative threshold = Ok d -> In ("runs", OInt r) d ->
  let p := Z.of_nat (above t (known x)) in let q := Z.of_nat (below t (known x)) in
  (2 <= r <= p + q /\ r <= 2 * Z.min p q + 1)%Z.
Proof. exact C33_run_bounds_proof. Qed.
Print Assumptions C33_run_bounds.

(** C33: reversing the series, shifting it, or multiplying it by a non-zero (also negative) number
    changes nothing. *)
Theorem C33_invariant : forall norm_cdf x alternative threshold,
  runs_test norm_cdf (rev x) alternative threshold = runs_test norm_cdf x alternative threshold /\
  forall a b, ~ a == 0 ->
    runs_test norm_cdf (affine a b x) alternative threshold = runs_test norm_cdf x alternative threshold.
Proof. exact C33_invariant_proof. Qed.
Print Assumptions C33_invariant.

(** C33: the two one-sided p-values add up to one, the two-sided one is twice the smaller. *)
Theorem C33_p_values : forall norm_cdf x threshold d,
  runs_test norm_cdf x "left.sided" threshold = Ok d -> x <> [] ->
  exists left dr dt,
    In ("p_value", OReal left) d /\
    runs_test norm_cdf x "right.sided" threshold = Ok dr /\ In ("p_value", OReal (1 - left)) dr /\
    runs_test norm_cdf x "two.sided" threshold = Ok dt /\ In ("p_value", OReal (2 * Rmin left (1 - left))) dt /\
    exists s, In ("statistic", OReal s) d /\ left = norm_cdf s.
Proof. exact C33_p_values_proof. Qed.
Print Assumptions C33_p_values.

(** C33: the remaining cases: no value at all, an unknown alternative, an unknown threshold. *)
Theorem C33_other_cases : forall norm_cdf x alternative threshold,
  (x = [] \/ ~ In alternative alternatives -> exists d,
     runs_test norm_cdf x alternative threshold = Ok d /\ forall k v, In (k, v) d -> v = ONone) /\
  (x <> [] -> In alternative alternatives -> known x = [] -> In threshold ["median"; "mean"] ->
     runs_test norm_cdf x alternative threshold = Err ValueError) /\
  (known x <> [] -> In alternative alternatives -> ~ In threshold ["median"; "mean"] ->
     runs_test norm_cdf x alternative threshold = Err TypeError).
Proof. exact C33_other_cases_proof. Qed.
Print Assumptions C33_other_cases.

(** C33: the documented entry 'mean_value' is missing from a result without a test. *)
Theorem C33_mean_key_refuted : forall norm_cdf alternative threshold,
  exists d, runs_test norm_cdf [] alternative threshold = Ok d /\
    (forall v, ~ In ("mean_value", v) d) /\ exists v, In ("mean_value ", v) d.
Proof. exact C33_mean_key_refuted_proof. Qed.
Print Assumptions C33_mean_key_refuted.

Example C33_case :
  ThresholdOf "median" (known small_series) (7 # 2) /\ ThresholdOf "mean" (known small_series) 4 /\
  EnoughRuns (above (7 # 2) (known small_series)) (below (7 # 2) (known small_series)) /\
  runs_of (sides (7 # 2) (known small_series)) = 6%nat /\
  ~ EnoughRuns (above 1 [1; 2; 3]) (below 1 [1; 2; 3]).
Proof. exact C33_case_proof. Qed.

(** C34: the values of the autocovariance and autocorrelation functions. *)
Theorem C34_values : forall x lag, known x <> [] -> (0 <= lag)%Z ->
  (exists r, acf x "covariance" (Some lag) = Ok (Some r) /\
     Z.of_nat (length r) = (Z.min lag (Z.of_nat (length x) - 1) + 1)%Z /\
     forall k v, nth_error r k = Some v -> v == acov k x) /\
  (Varies x -> exists r, acf x "correlation" (Some lag) = Ok (Some r) /\
     Z.of_nat (length r) = (Z.min lag (Z.of_nat (length x) - 1) + 1)%Z /\
     forall k v, nth_error r k = Some v -> v == acor k x) /\
  (~ Varies x -> acf x "correlation" (Some lag) = Err ZeroDivisionError).
Proof. exact C34_values_proof. Qed.
Print Assumptions C34_values.

(** C34: the first autocorrelation is one; without missing values none exceeds one. *)
Theorem C34_bounded : forall x lag r, acf x "correlation" lag = Ok (Some r) ->
  (forall v, nth_error r 0 = Some v -> v == 1) /\
  (Complete x -> forall v, In v r -> -1 <= v <= 1).
Proof. exact C34_bounded_proof. Qed.
Print Assumptions C34_bounded.

(** C34: with missing values an "autocorrelation" can exceed one. *)
Theorem C34_gaps_bounded_refuted : exists r v,
  acf gap_series "correlation" (Some 1%Z) = Ok (Some r) /\ In v r /\ v == 3 # 2.
Proof. exact C34_gaps_bounded_refuted_proof. Qed.
Print Assumptions C34_gaps_bounded_refuted.

(** C34: shifting and scaling do not change the autocorrelations, nor does reversing. *)
Theorem C34_invariant : forall x lag r, acf x "correlation" lag = Ok (Some r) ->
  (exists r', acf (rev x) "correlation" lag = Ok (Some r') /\ same_numbers r r') /\
  forall a b, ~ a == 0 ->
    exists r', acf (affine a b x) "correlation" lag = Ok (Some r') /\ same_numbers r r'.
Proof. exact C34_invariant_proof. Qed.
Print Assumptions C34_invariant.

(** C34: the default lag gives at least one and at most as many entries as the series. *)
Theorem C34_default_lag : forall x, Varies x -> exists r,
  acf x "correlation" None = Ok (Some r) /\ (1 <= length r <= length x)%nat.
Proof. exact C34_default_lag_proof. Qed.
Print Assumptions C34_default_lag.

(** C34: no value, an unknown type, only missing values, a negative lag. *)
Theorem C34_other_cases : forall x acf_type lag,
  (x = [] \/ ~ In acf_type ["covariance"; "correlation"] -> acf x acf_type lag = Ok None) /\
  (x <> [] -> In acf_type ["covariance"; "correlation"] -> known x = [] -> acf x acf_type lag = Err ValueError) /\
  (known x <> [] -> In acf_type ["covariance"; "correlation"] -> forall l, lag = Some l -> (l < 0)%Z ->
     acf x acf_type lag = Ok (Some [])).
Proof. exact C34_other_cases_proof. Qed.
Print Assumptions C34_other_cases.

(** C34: the "least-squares" lag-1 coefficient is the least-squares slope exactly when the first or
    the last value is the mean, or the last value is one below the mean. *)
Theorem C34_coefficient : forall data c first last,
  autocor_coef data = Ok (Some c) ->
  hd_error (known data) = Some first -> hd_error (rev (known data)) = Some last ->
  (c == slope (successive (known data)) <->
   first == series_mean data \/ last == series_mean data \/ last == series_mean data - 1).
Proof. exact C34_coefficient_proof. Qed.
Print Assumptions C34_coefficient.

(** C34: so it depends on the unit of measurement, and can be far outside [-1,1]. *)
Theorem C34_coefficient_scale_refuted : exists data c c',
  autocor_coef data = Ok (Some c) /\ autocor_coef (affine 2 0 data) = Ok (Some c') /\ ~ c == c' /\
  exists data2 c2, autocor_coef data2 = Ok (Some c2) /\ 1 < Qabs c2.
Proof. exact C34_coefficient_scale_refuted_proof. Qed.
Print Assumptions C34_coefficient_scale_refuted.

(** C34: a series that is constant up to its last value makes it fail; fewer than two values have
    no coefficient. *)
Theorem C34_coefficient_raises : forall data,
  ((length (known data) < 2)%nat -> autocor_coef data = Ok None) /\
  (forall c z k, (1 <= k)%nat -> known data = (repeat c k ++ [z])%list ->
     autocor_coef data = Err ZeroDivisionError).
Proof. exact C34_coefficient_raises_proof. Qed.
Print Assumptions C34_coefficient_raises.

Example C34_case : Varies small_series /\ known small_series <> [] /\ Complete [Some 1; Some 2] /\ Varies [Some 1; Some 2] /\
  exists c, autocor_coef small_series = Ok (Some c).
Proof. exact C34_case_proof. Qed.
