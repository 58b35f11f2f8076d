(** Words for the statements about the programs from file to file. *)
From Coq Require Import Reals.
From Verif Require Import PyBase ColumnModel BaseSpec RealSpec AggSpec Sl1l2Spec EnsSpec AnomSpec WindSpec EventSpec UtilSpec DriveSpec PoolSpec.
From Verif Require Import CtcSpec BootModel CardModel SumDriveSpec DriveModel FileModel FileSpec.
From Coq Require Import List.
Open Scope string_scope.
Open Scope Q_scope.

(** What the statistics of anomalies, of vectors of anomalies and of winds measure. *)
Definition anomaly_measures : list (string * (list pair -> option Q -> Prop)) :=
  [("anom_corr", AnomCorrOf); ("anom_corr_raw", AnomCorrRawOf); ("rmsfa", RmsfaOf); ("rmsoa", RmsoaOf)].
Definition vector_measures : list (string * (list vpair -> option Q -> Prop)) :=
  [("val1l2_anom_corr", fun l r => PublishedR (vector_corr l) r)].
Definition wind_measures : list (string * (list vpair -> option Q -> Prop)) :=
  [("vl1l2_bias", BiasOf); ("vl1l2_fvar", FvarOf); ("vl1l2_ovar", OvarOf); ("vl1l2_msve", MsveOf); ("vl1l2_rmsve", RmsveOf);
   ("vl1l2_speed_err", SpeedErrOf); ("vcnt_fbar", FsmeanOf); ("vcnt_obar", OsmeanOf); ("vcnt_fs_rms", FsRmsOf); ("vcnt_os_rms", OsRmsOf);
   ("vcnt_msve", MsveOf); ("vcnt_rmsve", RmsveOf); ("vcnt_fstdev", FsStdevOf); ("vcnt_ostdev", OsStdevOf);
   ("vcnt_fbar_speed", FspeedOf); ("vcnt_obar_speed", OspeedOf); ("vcnt_vdiff_speed", VdiffSpeedOf);
   ("vcnt_speed_err", SpeedErrOf); ("vcnt_speed_abserr", SpeedAbsErrOf);
   ("vcnt_fdir", FdirOf); ("vcnt_odir", OdirOf); ("vcnt_vdiff_dir", VdiffDirOf)].
(** Two more that are right for single lines only. *)
Definition speed_measures : list (string * (list vpair -> option Q -> Prop)) := [("vl1l2_fspd", FspeedOf); ("vl1l2_ospd", OspeedOf)].
Definition gradient_scores : list (string * (list (Q * Q) -> option Q -> Prop)) :=
  map (fun x => (fst x, fun l r => Published (snd x l) r)) gradient_measures.

(** The kinds of lines: the cases that a line summarises, the line type, the fields of a line, and what the statistics of
    the line type measure of the cases. *)
Inductive Measured : forall A : Type, string -> list (string * (A -> Q)) -> list (string * (list A -> option Q -> Prop)) -> Prop :=
| measured_pairs : Measured pair "sl1l2" sl1l2_fields pair_measures
| measured_anomalies : Measured pair "sal1l2" sal1l2_fields anomaly_measures
| measured_vectors : Measured vpair "val1l2" val1l2_fields vector_measures
| measured_winds : Measured vpair "vl1l2" wind_fields wind_measures
| measured_wind_scores : Measured vpair "vcnt" wind_fields wind_measures
| measured_gradients : Measured (Q * Q) "grad" grad_fields gradient_scores.
(** The same for the summary of single lines.  Of anomalies it has the measures of pairs, except the mean absolute error. *)
Inductive MeasuredAlone : forall A : Type, string -> list (string * (A -> Q)) -> list (string * (list A -> option Q -> Prop)) -> Prop :=
| alone_pairs : MeasuredAlone pair "sl1l2" sl1l2_fields (("fe", FeOf) :: pair_measures)
| alone_anomalies : MeasuredAlone pair "sal1l2" sal1l2_fields
    (filter (fun x => negb (String.eqb (fst x) "mae")) (("fe", FeOf) :: pair_measures))
| alone_vectors : MeasuredAlone vpair "val1l2" val1l2_fields vector_measures
| alone_winds : MeasuredAlone vpair "vl1l2" wind_fields (speed_measures ++ wind_measures)
| alone_gradients : MeasuredAlone (Q * Q) "grad" grad_fields gradient_scores.

(** A line of the output file about [items], see OutputRow. *)
Definition OutputLine {A : Type} (columns : list string) (items : list (A * list cell)) (rq : request)
  (fields : list (string * list string)) (Result : string -> list (A * list cell) -> results -> Prop)
  (names : list string) (p : list string) (l : list card_cell) : Prop :=
  exists o, OutputRow columns items rq fields Result p o /\ StatLine names o l.
(** The statistic that a line names. *)
Definition Asks (columns : list string) (r : list cell) (st : string) : Prop :=
  exists s, CellOf columns r "stat_name" (CStr s) /\ InSmallLetters s st.

(** For the examples: lines of winds, files with lines, and requests. *)
Definition wind_columns : list string := ("fcst_valid_beg" :: "fcst_lead" :: "model" :: line_columns wind_fields)%list.
Definition wind_items : list (list vpair * list cell) :=
  map (fun x => (snd x, (CStr (fst x) :: CNum 12 :: CStr "A" :: line_of wind_fields (snd x))%list))
    [("d2", [VPair 3 4 4 3 5 5; VPair 0 2 0 1 2 1]); ("d1", [VPair (-6) 8 (-8) 6 10 10])].
Definition calm_items : list (list vpair * list cell) :=
  map (fun x => (snd x, (CStr (fst x) :: CNum 12 :: CStr "A" :: line_of wind_fields (snd x))%list))
    [("d1", [VPair 3 4 3 4 5 5; VPair 3 4 3 4 5 5]); ("d2", [VPair 0 0 0 0 0 0; VPair 0 0 0 0 0 0])].
Definition whole_files : string -> option (list (list card_cell)) := fun p =>
  if String.eqb p "lines.data" then Some (TableLines pool_columns (map snd pool_items)) else None.
Definition no_engine : engine := Engine (fun _ _ => Err NotModelled) (fun _ _ => Err NotModelled) (fun _ _ => Err NotModelled)
  (fun _ _ => Err NotModelled) (fun _ _ _ _ => Err NotModelled) (fun _ _ => Err NotModelled).
Definition whole_job : agg_params :=
  AggParams "lines.data" "out" None (PBool false) [] None None (pool_request ["FBAR"; "ME"]) no_request (fun _ => no_engine) true "sl1l2".
Definition summary_columns : list string := ("model" :: "stat_name" :: line_columns sl1l2_fields)%list.
Definition summary_items : list (list pair * list cell) :=
  map (fun x => (snd x, (CStr "A" :: CStr (fst x) :: line_of sl1l2_fields (snd x))%list)) [("FBAR", [(1, 2); (3, 5); (2, 2)]); ("ME", [(7, 4)])].
Definition anomaly_columns : list string := ("model" :: "stat_name" :: line_columns sal1l2_fields)%list.
Definition anomaly_rows : list (list cell) :=
  map (fun x => (CStr "A" :: CStr (fst x) :: line_of sal1l2_fields (snd x))%list) [("ANOM_CORR", [(1, 2); (3, 5); (2, 2)]); ("FBAR", [(7, 4)])].
Definition summary_files : string -> option (list (list card_cell)) := fun p =>
  if String.eqb p "lines.data" then Some (TableLines summary_columns (map snd summary_items))
  else if String.eqb p "anomalies.data" then Some (TableLines anomaly_columns anomaly_rows) else None.
Definition summary_job (input line_type : string) : sum_params :=
  SumParams input "out" (PBool false) [] None None line_type "fcst_lead" ["12"] [("model", ["A"])] (Some []) (fun _ => None).
