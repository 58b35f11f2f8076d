(** C150: settings from the environment (metcalcpy/contributed/blocking_weather_regime). *)
From Coq Require Import List ZArith String Ascii.
From Verif Require Import PyBase SettingsModel SettingsSpec SettingsProofs.
Import ListNotations.
Open Scope string_scope.
Open Scope Z_scope.

(** C150: the settings of a blocking calculation are the variables with its label, or the defaults; there is one for every environment in which
    the numbers are whole and the number of points to smooth is odd. *)
Theorem C150_blocking : forall environ label b, BlockingCalculation environ label = Ok b <->
  TextSetting environ (label ++ "_BLOCKING_ANOMALY_VAR") "Z500_ANA" (blocking_anomaly_var b) /\
  TextSetting environ (label ++ "_BLOCKING_VAR") "Z500" (blocking_var b) /\
  NumberSetting environ (label ++ "_SMOOTHING_PTS") 9 (smoothing_pts b) /\
  NumbersSetting environ (label ++ "_LAT_DELTA") "-5,0,5" (lat_delta b) /\
  NumberSetting environ (label ++ "_NORTH_SOUTH_LIMITS") 30 (n_s_limits b) /\
  NumberSetting environ (label ++ "_IBL_DIST") 7 (ibl_dist b) /\
  NumberSetting environ (label ++ "_IBL_IN_GIBL") 15 (ibl_in_gibl b) /\
  NumberSetting environ (label ++ "_GIBL_OVERLAP") 10 (gibl_overlap b) /\
  NumberSetting environ (label ++ "_BLOCK_TIME") 5 (block_time b) /\
  NumberSetting environ (label ++ "_BLOCK_TRAVEL") 45 (block_travel b) /\
  TextSetting environ (label ++ "_BLOCK_METHOD") "PH" (block_method b) /\
  Z.Odd (smoothing_pts b).
Proof. exact C150_blocking_proof. Qed.
Print Assumptions C150_blocking.

(** Two variables of the label are set. *)
Example C150_blocking_case :
  BlockingCalculation (fun n => if String.eqb n "OBS_LAT_DELTA" then Some "-8, +4 ,1_0" else if String.eqb n "OBS_BLOCK_TIME" then Some " 007" else None) "OBS"
  = Ok (Blocking "Z500_ANA" "Z500" 9 [-8; 4; 10] 30 7 15 10 7 45 "PH").
Proof. exact C150_blocking_case_proof. Qed.

(** C150: settings of regimes, likewise. *)
Theorem C150_regimes : forall environ label r, WeatherRegimeCalculation environ label = Ok r <->
  NumberSetting environ (label ++ "_WR_NUMBER") 6 (wrnum r) /\
  NumberSetting environ (label ++ "_NUM_CLUSTERS") 20 (numi r) /\
  NumberSetting environ (label ++ "_NUM_PCS") 10 (NUMPCS r) /\
  NumberSetting environ (label ++ "_WR_FREQ") 7 (wr_tstep r) /\
  TextSetting environ (label ++ "_WR_OUTPUT_FILE_TYPE") "text" (wr_outfile_type r) /\
  (exists base, environ "SCRIPT_OUTPUT_BASE" = Some base /\ TextSetting environ "WR_OUTPUT_FILE_DIR" base (wr_outfile_dir r)) /\
  TextSetting environ (label ++ "_WR_OUTPUT_FILE") (label ++ "_WeatherRegime") (wr_outfile r).
Proof. exact C150_regimes_proof. Qed.
Print Assumptions C150_regimes.

(** Only the base directory is set, as it must be. *)
Example C150_regimes_case :
  WeatherRegimeCalculation (fun n => if String.eqb n "SCRIPT_OUTPUT_BASE" then Some "/out" else None) "FCST"
  = Ok (Regime 6 20 10 7 "text" "/out" "FCST_WeatherRegime").
Proof. exact C150_regimes_case_proof. Qed.

(** C150: a text that does not spell a whole number is refused, also an empty one, and nothing else than an even number of points to smooth and a
    missing base directory. *)
Theorem C150_refused : forall environ label,
  (BlockingCalculation environ label = Err ValueError <->
     (exists name default text, In (name, default) blocking_numbers /\ environ (label ++ name) = Some text /\ forall z, ~ Spells text z) \/
     (exists text parts part, environ (label ++ "_LAT_DELTA") = Some text /\ PartsBy "," text parts /\ In part parts /\ forall z, ~ Spells part z)) /\
  (BlockingCalculation environ label = Err SystemExit ->
     exists text z, environ (label ++ "_SMOOTHING_PTS") = Some text /\ Spells text z /\ Z.Even z) /\
  (WeatherRegimeCalculation environ label = Err ValueError <->
     exists name default text, In (name, default) regime_numbers /\ environ (label ++ name) = Some text /\ forall z, ~ Spells text z) /\
  (WeatherRegimeCalculation environ label = Err KeyError -> environ "SCRIPT_OUTPUT_BASE" = None) /\
  (forall e, BlockingCalculation environ label = Err e -> e = ValueError \/ e = SystemExit) /\
  (forall e, WeatherRegimeCalculation environ label = Err e -> e = ValueError \/ e = KeyError).
Proof. exact C150_refused_proof. Qed.
Print Assumptions C150_refused.

(** Neither an empty text nor one with a decimal point is a whole number; and ten points cannot be smoothed. *)
Example C150_refused_case :
  (forall z, ~ Spells "" z) /\ (forall z, ~ Spells "5.0" z) /\
  BlockingCalculation (fun n => if String.eqb n "FCST_LAT_DELTA" then Some "-5,,5" else None) "FCST" = Err ValueError /\
  BlockingCalculation (fun n => if String.eqb n "FCST_SMOOTHING_PTS" then Some "10" else None) "FCST" = Err SystemExit.
Proof. exact C150_refused_case_proof. Qed.

(** C150: a text spells at most one number. *)
Theorem C150_one_number : forall text z z', Spells text z -> Spells text z' -> z = z'.
Proof. exact C150_one_number_proof. Qed.
Print Assumptions C150_one_number.
Example C150_one_number_case : Spells " -1_5" (-15).
Proof. exact C150_one_number_case_proof. Qed.

(** C150: variables of one label do not change the calculations of another one. *)
Theorem C150_labels : forall environ environ' label,
  (forall name, environ name <> environ' name -> exists other suffix, other <> label /\ In suffix labelled /\ name = other ++ suffix) ->
  BlockingCalculation environ label = BlockingCalculation environ' label /\
  WeatherRegimeCalculation environ label = WeatherRegimeCalculation environ' label /\
  parse_steps environ = parse_steps environ'.
Proof. exact C150_labels_proof. Qed.
Print Assumptions C150_labels.

(** An environment with settings of observations, and one without; the label is that of forecasts. *)
Example C150_labels_case :
  let environ n := if String.eqb n "OBS_SMOOTHING_PTS" then Some "5" else None in
  (forall name, environ name <> None -> exists other suffix, other <> "FCST" /\ In suffix labelled /\ name = other ++ suffix) /\
  BlockingCalculation environ "OBS" <> BlockingCalculation (fun _ => None) "OBS".
Proof. exact C150_labels_case_proof. Qed.

(** C150 fails for the directory of regimes: its variable has no label, so that forecasts and observations share one ... *)
Theorem C150_directory_refuted : forall environ label label' r r',
  WeatherRegimeCalculation environ label = Ok r -> WeatherRegimeCalculation environ label' = Ok r' -> wr_outfile_dir r = wr_outfile_dir r'.
Proof. exact C150_directory_refuted_proof. Qed.
Print Assumptions C150_directory_refuted.
Example C150_directory_case :
  let environ n := if String.eqb n "SCRIPT_OUTPUT_BASE" then Some "/out" else if String.eqb n "OBS_WR_OUTPUT_FILE_DIR" then Some "/obs" else None in
  exists r, WeatherRegimeCalculation environ "OBS" = Ok r /\ wr_outfile_dir r = "/out".
Proof. exact C150_directory_case_proof. Qed.

(** ... and it is not enough to set it: without a base directory, which is then not used, there is a KeyError. *)
Theorem C150_base_refuted : exists environ, environ "WR_OUTPUT_FILE_DIR" = Some "/regimes" /\
  forall label, environ (label ++ "_WR_NUMBER") = None -> environ (label ++ "_NUM_CLUSTERS") = None -> environ (label ++ "_NUM_PCS") = None ->
    environ (label ++ "_WR_FREQ") = None -> WeatherRegimeCalculation environ label = Err KeyError.
Proof. exact C150_base_refuted_proof. Qed.
Print Assumptions C150_base_refuted.

(** C150: the steps of a run are those that were put together with plus signs. *)
Theorem C150_steps : forall environ forecast observed,
  (forall text, environ "FCST_STEPS" = Some text -> PartsBy "+" text forecast) ->
  (forall text, environ "OBS_STEPS" = Some text -> PartsBy "+" text observed) ->
  (environ "FCST_STEPS" = None -> forecast = [""]) -> (environ "OBS_STEPS" = None -> observed = [""]) ->
  parse_steps environ = (forecast, observed).
Proof. exact C150_steps_proof. Qed.
Print Assumptions C150_steps.
Example C150_steps_case : PartsBy "+" "ELBOW+EOF+KMEANS" ["ELBOW"; "EOF"; "KMEANS"].
Proof. exact C150_steps_case_proof. Qed.

(** C150 fails for runs without steps: there is always one step, which has an empty name. *)
Theorem C150_no_steps_refuted : forall environ, fst (parse_steps environ) <> [] /\ snd (parse_steps environ) <> [] /\
  (environ "FCST_STEPS" = None \/ environ "FCST_STEPS" = Some "" -> fst (parse_steps environ) = [""]).
Proof. exact C150_no_steps_refuted_proof. Qed.
Print Assumptions C150_no_steps_refuted.
