(** Properties C10, C11, C39: scalar partial sums. *)
From Coq Require Import Reals Qreals.
From Verif Require Import PyBase ColumnModel BaseSpec RealSpec AggModel AggSpec AggProofs MomentProofs
  Sl1l2Model Sl1l2Spec Sl1l2Proofs Sl1l2Proofs2 Sl1l2Safe.
Open Scope string_scope.
Open Scope Q_scope.

(** C10: aggregating partial-sum lines gives the measure of all raw pairs pooled together,
    however the pairs were divided over the lines. *)
Theorem C10_pooling : forall groups data columns,
  Summaries sl1l2_fields columns groups data ->
  Forall (fun '(name, stat, Measure) =>
      exists r, aggregated name stat data columns = Ok r /\ Measure (concat groups) r)
  [("fbar", calculate_fbar, FbarOf); ("obar", calculate_obar, ObarOf); ("fobar", calculate_fobar, FobarOf);
   ("ffbar", calculate_ffbar, FfbarOf); ("oobar", calculate_oobar, OobarOf); ("mae", calculate_mae, MaeOf);
   ("mbias", calculate_mbias, MbiasOf); ("me", calculate_me, MeOf); ("me2", calculate_me2, Me2Of);
   ("mse", calculate_mse, MseOf); ("rmse", calculate_rmse, RmseOf); ("fstdev", calculate_fstdev, FstdevOf);
   ("ostdev", calculate_ostdev, OstdevOf); ("pr_corr", calculate_pr_corr, CorrOf);
   ("bcmse", calculate_bcmse, BcmseOf); ("bcrmse", calculate_bcrmse, BcrmseOf); ("msess", calculate_msess, MsessOf)].
Proof. exact sl1l2_pooling. Qed.
Print Assumptions C10_pooling.

(** C10: the same measures of a single line without aggregation (and FE). *)
Theorem C10_single_line : forall b r columns,
  SummaryRow sl1l2_fields columns b r ->
  Forall (fun '(name, stat, Measure) =>
      exists v, stat [r] columns false = Ok v /\ Measure b v)
  [("fe", calculate_fe, FeOf);
   ("fbar", calculate_fbar, FbarOf); ("obar", calculate_obar, ObarOf); ("fobar", calculate_fobar, FobarOf);
   ("ffbar", calculate_ffbar, FfbarOf); ("oobar", calculate_oobar, OobarOf); ("mae", calculate_mae, MaeOf);
   ("mbias", calculate_mbias, MbiasOf); ("me", calculate_me, MeOf); ("me2", calculate_me2, Me2Of);
   ("mse", calculate_mse, MseOf); ("rmse", calculate_rmse, RmseOf); ("fstdev", calculate_fstdev, FstdevOf);
   ("ostdev", calculate_ostdev, OstdevOf); ("pr_corr", calculate_pr_corr, CorrOf);
   ("bcmse", calculate_bcmse, BcmseOf); ("bcrmse", calculate_bcrmse, BcrmseOf); ("msess", calculate_msess, MsessOf)].
Proof. exact sl1l2_row. Qed.
Print Assumptions C10_single_line.

(** C10: the scatter index, including the inputs on which it raises. *)
Theorem C10_scatter_index : forall groups data columns,
  Summaries sl1l2_fields columns groups data ->
  exists m o, RmseOf (concat groups) (Some m) /\ ObarOf (concat groups) (Some o) /\
    (o == 0 -> aggregated "si" calculate_si data columns = Err ZeroDivisionError) /\
    (~ o == 0 -> exists r, aggregated "si" calculate_si data columns = Ok (Some r) /\ Nearest 7 (m / o) r).
Proof. exact si_pooling. Qed.
Print Assumptions C10_scatter_index.

(** C10 fails for the fractional error: lines are not weighted by their pair counts. *)
Theorem C10_fe_pooling_refuted : exists groups data columns r,
  Summaries sl1l2_fields columns groups data /\
  aggregated "fe" calculate_fe data columns = Ok r /\ ~ FeOf (concat groups) r.
Proof. exact fe_refuted. Qed.
Print Assumptions C10_fe_pooling_refuted.

(** C10 fails for the standard deviation of the error: the aggregation flag is not passed on. *)
Theorem C10_estdev_pooling_refuted : exists groups data columns r,
  Summaries sl1l2_fields columns groups data /\
  aggregated "estdev" calculate_estdev data columns = Ok r /\ ~ EstdevOf (concat groups) r.
Proof. exact estdev_refuted. Qed.
Print Assumptions C10_estdev_pooling_refuted.

(** Every list of non-empty groups has such lines; two groups of different size. *)
Example C10_case : Summaries sl1l2_fields (line_columns sl1l2_fields)
  [[(1, 2); (3, 5)]; [(2, 2)]] (map (line_of sl1l2_fields) [[(1, 2); (3, 5)]; [(2, 2)]]).
Proof. apply lines_ok; [discriminate|reflexivity]. Qed.

(** C11: error measures of genuine data are defined and non-negative. *)
Theorem C11_errors_nonneg : forall groups data columns,
  Summaries sl1l2_fields columns groups data ->
  (exists r, aggregated "mse" calculate_mse data columns = Ok (Some r) /\ 0 <= r) /\
  (exists r, aggregated "rmse" calculate_rmse data columns = Ok (Some r) /\ 0 <= r) /\
  (exists r, aggregated "mae" calculate_mae data columns = Ok (Some r) /\ 0 <= r).
Proof. exact genuine_mse. Qed.
Print Assumptions C11_errors_nonneg.

(** C11: standard deviations are defined exactly for more than one pair. *)
Theorem C11_stdev_defined : forall groups data columns,
  Summaries sl1l2_fields columns groups data ->
  exists rf ro, aggregated "fstdev" calculate_fstdev data columns = Ok rf /\
    aggregated "ostdev" calculate_ostdev data columns = Ok ro /\
    (1 < count (concat groups) -> exists f o, rf = Some f /\ ro = Some o /\ 0 <= f /\ 0 <= o) /\
    (count (concat groups) <= 1 -> rf = None /\ ro = None).
Proof. exact genuine_stdev. Qed.
Print Assumptions C11_stdev_defined.

(** C11: the correlation is in [-1,1] and undefined exactly for constant data. *)
Theorem C11_correlation : forall groups data columns,
  Summaries sl1l2_fields columns groups data ->
  exists r, aggregated "pr_corr" calculate_pr_corr data columns = Ok r /\
    (forall c, r = Some c -> -1 <= c <= 1) /\
    (r = None <-> Constant fc (concat groups) \/ Constant ob (concat groups)).
Proof. exact genuine_corr. Qed.
Print Assumptions C11_correlation.

(** C11: linearly related data have correlation 1 or -1. *)
Theorem C11_correlation_linear : forall groups data columns a b,
  Summaries sl1l2_fields columns groups data ->
  (forall p, In p (concat groups) -> ob p == a * fc p + b) -> ~ a == 0 -> ~ Constant fc (concat groups) ->
  exists c, aggregated "pr_corr" calculate_pr_corr data columns = Ok (Some c) /\
    (0 < a -> c == 1) /\ (a < 0 -> c == -1).
Proof. exact genuine_corr_linear. Qed.
Print Assumptions C11_correlation_linear.

(** C11: Cauchy-Schwarz for the deviations themselves. *)
Theorem C11_cauchy_schwarz : forall l : list pair,
  codev fc ob l * codev fc ob l <= codev fc fc l * codev ob ob l /\ 0 <= codev fc fc l /\ 0 <= codev ob ob l.
Proof. exact (fun l => conj (codev_cs fc ob l) (conj (codev_self_nonneg fc l) (codev_self_nonneg ob l))). Qed.
Print Assumptions C11_cauchy_schwarz.

(** C11: |ME| <= RMSE and MAE <= RMSE hold for the exact measures... *)
Theorem C11_exact_order : forall l : list pair, l <> [] ->
  mean_abs_error l * mean_abs_error l <= mean_sq_error l /\ mean_error l * mean_error l <= mean_sq_error l.
Proof. exact (fun l H => conj (mae_le_rmse l H) (me_sq_le_mse l H)). Qed.
Print Assumptions C11_exact_order.

(** ... but not for the published ones: RMSE is the root of an already rounded MSE. *)
Theorem C11_published_order_refuted : exists groups data columns r a,
  Summaries sl1l2_fields columns groups data /\
  aggregated "rmse" calculate_rmse data columns = Ok (Some r) /\
  aggregated "mae" calculate_mae data columns = Ok (Some a) /\ r == 0 /\ a == 1 # 10000.
Proof. exact rmse_mae_refuted. Qed.
Print Assumptions C11_published_order_refuted.

(** The bias-corrected mean squared error of genuine data can be negative, and its root undefined. *)
Theorem C11_bcmse_nonneg_refuted : exists groups data columns r,
  Summaries sl1l2_fields columns groups data /\
  aggregated "bcmse" calculate_bcmse data columns = Ok (Some r) /\ r < 0 /\
  aggregated "bcrmse" calculate_bcrmse data columns = Ok None.
Proof. exact bcmse_refuted. Qed.
Print Assumptions C11_bcmse_nonneg_refuted.

Example C11_case : let l := [(1, 2); (3, 6); (2, 4)] in
  (forall p, In p l -> ob p == 2 * fc p + 0) /\ ~ Constant fc l /\ 1 < count l.
Proof.
  cbv zeta. split; [|split].
  - intros p [<-|[<-|[<-|[]]]]; reflexivity.
  - intro C. specialize (C (1, 2) (3, 6) ltac:(simpl; auto) ltac:(simpl; auto)). discriminate C.
  - reflexivity.
Qed.

(** C39: these statistics return a number or None on every table. *)
Theorem C39_no_exception : forall data columns agg,
  Forall (fun f => exists r, f data columns agg = Ok r)
    [calculate_fbar; calculate_obar; calculate_fobar; calculate_ffbar; calculate_oobar; calculate_mae;
     calculate_mbias; calculate_fe; calculate_me; calculate_me2; calculate_pr_corr; calculate_msess].
Proof. exact sl1l2_never_raise. Qed.
Print Assumptions C39_no_exception.

(** C39: the others do so on tables without text. *)
Theorem C39_no_exception_numeric : forall data columns agg,
  Rectangular data columns -> (forall name, NumericColumn data columns name) ->
  Forall (fun f => exists r, f data columns agg = Ok r)
    [calculate_fstdev; calculate_ostdev; calculate_mse; calculate_rmse; calculate_estdev; calculate_bcmse; calculate_bcrmse].
Proof. exact sl1l2_never_raise_numeric. Qed.
Print Assumptions C39_no_exception_numeric.
Example C39_case : let columns := ["total"; "fbar"; "obar"] in let data := [[CNum 2; CNum 1; CMiss]; [CMiss; CNum (-3); CNum 4]] in
  Rectangular data columns /\ (forall name, NumericColumn data columns name).
Proof. exact C39_case_proof. Qed.

(** C39 fails for SI (uncaught ZeroDivisionError on genuine data) ... *)
Theorem C39_si_refuted : exists groups data columns,
  Summaries sl1l2_fields columns groups data /\
  aggregated "si" calculate_si data columns = Err ZeroDivisionError.
Proof. exact si_refuted. Qed.
Print Assumptions C39_si_refuted.

(** ... exactly if, on tables without text, the observation mean is zero and the root mean square error is not missing; it is
    None exactly if one of the two is ... *)
Theorem C39_si_exact : forall data columns agg,
  Rectangular data columns -> (forall name, NumericColumn data columns name) ->
  (forall e, calculate_si data columns agg = Err e <->
     e = ZeroDivisionError /\ exists m o, calculate_rmse data columns agg = Ok (Some m) /\
       calculate_obar data columns agg = Ok (Some o) /\ o == 0) /\
  (calculate_si data columns agg = Ok None <->
     calculate_rmse data columns agg = Ok None \/ calculate_obar data columns agg = Ok None).
Proof. exact si_exact. Qed.
Print Assumptions C39_si_exact.

(** ... and for MSE on text cells, where FBAR gives None. *)
Theorem C39_mse_text_refuted : exists data columns,
  calculate_mse data columns true = Err ValueError /\ calculate_fbar data columns true = Ok None.
Proof. exact mse_text_raises. Qed.
Print Assumptions C39_mse_text_refuted.
