(** Properties C37 and C42: wind vectors. *)
From Coq Require Import Reals Qreals Qabs.
From Verif Require Import PyBase ColumnModel BaseSpec RealSpec AggModel AggSpec
  Sl1l2Model Sl1l2Spec AnomSpec WindModel WindSpec WindProofs.
Open Scope string_scope.
Open Scope Q_scope.

(** C42: wind scores of aggregated lines are those of all raw cases pooled together. *)
Theorem C42_pooling : forall groups data columns,
  Summaries wind_fields columns groups data ->
  Forall (fun '(name, stat, Measure) =>
      exists r, aggregated name stat data columns = Ok r /\ Measure (concat groups) r)
  [("vl1l2_bias", calculate_vl1l2_bias, BiasOf);
   ("vl1l2_fvar", calculate_vl1l2_fvar, FvarOf); ("vl1l2_ovar", calculate_vl1l2_ovar, OvarOf);
   ("vl1l2_msve", calculate_vl1l2_msve, MsveOf); ("vl1l2_rmsve", calculate_vl1l2_rmsve, RmsveOf);
   ("vl1l2_speed_err", calculate_vl1l2_speed_err, SpeedErrOf);
   ("vcnt_fbar", calculate_vcnt_fbar, FsmeanOf); ("vcnt_obar", calculate_vcnt_obar, OsmeanOf);
   ("vcnt_fs_rms", calculate_vcnt_fs_rms, FsRmsOf); ("vcnt_os_rms", calculate_vcnt_os_rms, OsRmsOf);
   ("vcnt_msve", calculate_vcnt_msve, MsveOf); ("vcnt_rmsve", calculate_vcnt_rmsve, RmsveOf);
   ("vcnt_fstdev", calculate_vcnt_fstdev, FsStdevOf); ("vcnt_ostdev", calculate_vcnt_ostdev, OsStdevOf);
   ("vcnt_fbar_speed", calculate_vcnt_fbar_speed, FspeedOf);
   ("vcnt_obar_speed", calculate_vcnt_obar_speed, OspeedOf);
   ("vcnt_vdiff_speed", calculate_vcnt_vdiff_speed, VdiffSpeedOf);
   ("vcnt_speed_err", calculate_vcnt_speed_err, SpeedErrOf);
   ("vcnt_speed_abserr", calculate_vcnt_speed_abserr, SpeedAbsErrOf);
   ("vcnt_fdir", calculate_vcnt_fdir, FdirOf); ("vcnt_odir", calculate_vcnt_odir, OdirOf);
   ("vcnt_vdiff_dir", calculate_vcnt_vdiff_dir, VdiffDirOf)].
Proof. exact C42_pooling_proof. Qed.
Print Assumptions C42_pooling.

(** C42: the same for one line without aggregation, and the two speeds that are not aggregated. *)
Theorem C42_single_line : forall b r columns,
  SummaryRow wind_fields columns b r ->
  Forall (fun '(stat, Measure) => exists v, stat [r] columns false = Ok v /\ Measure b v)
  [(calculate_vl1l2_fspd, FspeedOf); (calculate_vl1l2_ospd, OspeedOf);
   (calculate_vl1l2_bias, BiasOf); (calculate_vl1l2_fvar, FvarOf); (calculate_vl1l2_ovar, OvarOf);
   (calculate_vl1l2_msve, MsveOf); (calculate_vl1l2_rmsve, RmsveOf); (calculate_vl1l2_speed_err, SpeedErrOf);
   (calculate_vcnt_fbar, FsmeanOf); (calculate_vcnt_obar, OsmeanOf);
   (calculate_vcnt_fs_rms, FsRmsOf); (calculate_vcnt_os_rms, OsRmsOf);
   (calculate_vcnt_msve, MsveOf); (calculate_vcnt_rmsve, RmsveOf);
   (calculate_vcnt_fstdev, FsStdevOf); (calculate_vcnt_ostdev, OsStdevOf);
   (calculate_vcnt_fbar_speed, FspeedOf); (calculate_vcnt_obar_speed, OspeedOf);
   (calculate_vcnt_vdiff_speed, VdiffSpeedOf);
   (calculate_vcnt_speed_err, SpeedErrOf); (calculate_vcnt_speed_abserr, SpeedAbsErrOf);
   (calculate_vcnt_fdir, FdirOf); (calculate_vcnt_odir, OdirOf); (calculate_vcnt_vdiff_dir, VdiffDirOf)].
Proof. exact C42_single_line_proof. Qed.
Print Assumptions C42_single_line.

(** C42: when the recorded speeds do not exceed the vector lengths, speed variances are not
    negative and the standard deviations are defined. *)
Theorem C42_variance : forall groups data columns,
  Summaries wind_fields columns groups data -> SpeedsBelow (concat groups) ->
  Forall (fun '(name, stat) => exists r, aggregated name stat data columns = Ok (Some r) /\ 0 <= r)
  [("vl1l2_fvar", calculate_vl1l2_fvar); ("vl1l2_ovar", calculate_vl1l2_ovar);
   ("vcnt_fstdev", calculate_vcnt_fstdev); ("vcnt_ostdev", calculate_vcnt_ostdev)].
Proof. exact C42_variance_proof. Qed.
Print Assumptions C42_variance.

(** C42 fails for the two VL1L2 speeds: their columns are not weighted by the pair counts. *)
Theorem C42_speeds_refuted : exists groups data columns f o,
  Summaries wind_fields columns groups data /\
  aggregated "vl1l2_fspd" calculate_vl1l2_fspd data columns = Ok f /\ ~ FspeedOf (concat groups) f /\
  aggregated "vl1l2_ospd" calculate_vl1l2_ospd data columns = Ok o /\ ~ OspeedOf (concat groups) o.
Proof. exact C42_speeds_refuted_proof. Qed.
Print Assumptions C42_speeds_refuted.

Example C42_case :
  Summaries wind_fields (line_columns wind_fields) wind_groups (map (line_of wind_fields) wind_groups) /\
  SpeedsBelow (concat wind_groups).
Proof. exact C42_case_proof. Qed.

(** C37: on every table the speeds are non-negative numbers or undefined. *)
Theorem C37_speeds_nonneg : forall data columns agg,
  Forall (fun stat => exists r, stat data columns agg = Ok r /\ forall x, r = Some x -> 0 <= x)
  [calculate_vl1l2_fspd; calculate_vl1l2_ospd; calculate_vcnt_fbar_speed; calculate_vcnt_obar_speed;
   calculate_vcnt_vdiff_speed; calculate_vcnt_speed_abserr].
Proof. exact C37_speeds_nonneg_proof. Qed.
Print Assumptions C37_speeds_nonneg.

(** C37: on every table the directions are undefined or in [0,360]; they are never between 4 and
    356, because the angle is never converted from radians. *)
Theorem C37_directions : forall data columns agg,
  Forall (fun stat => exists r, stat data columns agg = Ok r /\
      forall x, r = Some x -> 0 <= x <= 360 /\ (x <= 4 \/ 356 <= x))
  [calculate_vcnt_fdir; calculate_vcnt_odir; calculate_vcnt_vdiff_dir; calculate_vcnt_dir_err;
   calculate_vcnt_dir_abser].
Proof. exact C37_directions_proof. Qed.
Print Assumptions C37_directions.

(** C37: so the direction of a southerly wind is not 180 degrees, and opposite winds do not
    differ by 180 degrees. *)
Theorem C37_degrees_refuted : exists south north columns ds dn,
  SummaryRow wind_fields columns [VPair 0 1 0 1 1 1] south /\ BlowsFrom 0 1 180 /\
  calculate_vcnt_fdir [south] columns false = Ok (Some ds) /\ 356 <= ds /\
  SummaryRow wind_fields columns [VPair 0 (-1) 0 (-1) 1 1] north /\ BlowsFrom 0 (-1) 0 /\
  calculate_vcnt_fdir [north] columns false = Ok (Some dn) /\ dn == 0.
Proof. exact C37_degrees_refuted_proof. Qed.
Print Assumptions C37_degrees_refuted.

(** C37: a direction can be reported as 360. *)
Theorem C37_below_360_refuted : exists row columns d,
  SummaryRow wind_fields columns [VPair (1 # 1000000000) (-1) 0 0 1 0] row /\
  calculate_vcnt_fdir [row] columns false = Ok (Some d) /\ d == 360.
Proof. exact C37_below_360_refuted_proof. Qed.
Print Assumptions C37_below_360_refuted.

(** C37: the angle between the mean vectors, where one is reported, is the right one (in radians). *)
Theorem C37_direction_error : forall groups data columns,
  Summaries wind_fields columns groups data ->
  let l := concat groups in
  exists r, aggregated "vcnt_dir_err" calculate_vcnt_dir_err data columns = Ok r /\
    forall x, r = Some x -> exists a,
      BearingOf (mean_vf l * mean_uo l - mean_uf l * mean_vo l) (mean_uf l * mean_uo l + mean_vf l * mean_vo l) a /\
      PublishedR (Some (reported a)) (Some x).
Proof. exact C37_direction_error_proof. Qed.
Print Assumptions C37_direction_error.

(** C37: it is reported when both published speeds are not zero and there are few cases... *)
Theorem C37_direction_error_defined : forall groups data columns f o,
  Summaries wind_fields columns groups data -> count (concat groups) <= 17000 ->
  aggregated "vcnt_fbar_speed" calculate_vcnt_fbar_speed data columns = Ok (Some f) -> ~ f == 0 ->
  aggregated "vcnt_obar_speed" calculate_vcnt_obar_speed data columns = Ok (Some o) -> ~ o == 0 ->
  exists x, aggregated "vcnt_dir_err" calculate_vcnt_dir_err data columns = Ok (Some x).
Proof. exact C37_direction_error_defined_proof. Qed.
Print Assumptions C37_direction_error_defined.

(** ... and never when there are many: the observed speed is computed without the aggregation flag. *)
Theorem C37_direction_error_lost_refuted : forall groups data columns,
  Summaries wind_fields columns groups data -> 225000 < count (concat groups) ->
  aggregated "vcnt_dir_err" calculate_vcnt_dir_err data columns = Ok None.
Proof. exact C37_direction_error_lost_refuted_proof. Qed.
Print Assumptions C37_direction_error_lost_refuted.

Example C37_case : forall n, (0 < n)%nat ->
  Summaries wind_fields (line_columns wind_fields) [many_cases n] [line_of wind_fields (many_cases n)] /\
  count (concat [many_cases n]) == inject_Z (Z.of_nat n) /\
  mean_uf (many_cases n) == 3 /\ mean_vf (many_cases n) == 4.
Proof. exact C37_case_proof. Qed.
