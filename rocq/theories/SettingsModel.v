(** The settings of the blocking and weather regime calculations, which are read from the environment:
    metcalcpy/contributed/blocking_weather_regime/Blocking.py, WeatherRegime.py and Blocking_WeatherRegime_util.py.  Texts of the environment are
    ASCII (Python's [int] also reads the digits and spaces of other scripts). *)
From Coq Require Import List ZArith String Ascii.
From Verif Require Import PyBase ColumnModel EventModel.
Import ListNotations.
Open Scope string_scope.
Open Scope Z_scope.

(** [os.environ] as a mapping of names to texts. *)
Definition environment : Type := string -> option string.

(** [os.environ.get(name, default)], Blocking.py 28, 29, 31 and 39; WeatherRegime.py 33 and 35; Blocking_WeatherRegime_util.py 21 and 24. *)
Definition get (environ : environment) (name default : string) : string :=
  match environ name with Some text => text | None => default end.

(** The value of a decimal digit. *)
Definition digit (c : ascii) : option Z :=
  let n := Z.of_nat (nat_of_ascii c) in if (48 <=? n) && (n <=? 57) then Some (n - 48) else None.
(** The spaces that [int] skips: tab, line feed, vertical tab, form feed, carriage return, space. *)
Definition blank (c : ascii) : bool :=
  let n := Z.of_nat (nat_of_ascii c) in ((9 <=? n) && (n <=? 13)) || (n =? 32).

(** [int(text)], as used in Blocking.py 30, 32-38 and WeatherRegime.py 29-32: CPython's [PyLong_FromString] for base 10.  Spaces before and after
    are skipped, then there is a sign or none, and digits with single underscores between them.  The limit on the number of digits of newer
    versions of Python is not modelled. *)
Fixpoint skip_blanks (l : list ascii) : list ascii :=
  match l with
  | c :: rest => if blank c then skip_blanks rest else l
  | [] => []
  end.
Fixpoint scan (l : list ascii) (value : Z) (underscore : bool) : option (Z * list ascii) :=
  match l with
  | c :: rest =>
      match digit c with
      | Some d => scan rest (10 * value + d) false
      | None => if Ascii.eqb c "_" then if underscore then None else scan rest value true
                else if underscore then None else Some (value, l)
      end
  | [] => if underscore then None else Some (value, [])
  end.
Definition number (l : list ascii) : option (Z * list ascii) :=
  match l with
  | c :: rest => match digit c with Some d => scan rest d false | None => None end
  | [] => None
  end.
Definition signed (l : list ascii) : option (Z * list ascii) :=
  match l with
  | c :: rest =>
      if Ascii.eqb c "+" then number rest
      else if Ascii.eqb c "-" then match number rest with Some (v, r) => Some (- v, r) | None => None end
      else number l
  | [] => None
  end.
Definition int_of (text : string) : res Z :=
  match signed (skip_blanks (list_ascii_of_string text)) with
  | Some (v, rest) => match skip_blanks rest with [] => Ok v | _ => Err ValueError end
  | None => Err ValueError
  end.

(** [int(os.environ.get(name, default))], where the default is a number. *)
Definition get_int (environ : environment) (name : string) (default : Z) : res Z :=
  match environ name with Some text => int_of text | None => Ok default end.

(** Blocking.py 26-44, [BlockingCalculation.__init__].  [exit()] is SystemExit. *)
Record blocking : Type := Blocking {
  blocking_anomaly_var : string;
  blocking_var : string;
  smoothing_pts : Z;
  lat_delta : list Z;
  n_s_limits : Z;
  ibl_dist : Z;
  ibl_in_gibl : Z;
  gibl_overlap : Z;
  block_time : Z;
  block_travel : Z;
  block_method : string
}.
Definition BlockingCalculation (environ : environment) (label : string) : res blocking :=
  let anomaly_var := get environ (label ++ "_BLOCKING_ANOMALY_VAR") "Z500_ANA" in
  let var := get environ (label ++ "_BLOCKING_VAR") "Z500" in
  smoothing <- get_int environ (label ++ "_SMOOTHING_PTS") 9 ;;
  delta <- mapM int_of (split_on "," (get environ (label ++ "_LAT_DELTA") "-5,0,5")) ;;
  limits <- get_int environ (label ++ "_NORTH_SOUTH_LIMITS") 30 ;;
  dist <- get_int environ (label ++ "_IBL_DIST") 7 ;;
  in_gibl <- get_int environ (label ++ "_IBL_IN_GIBL") 15 ;;
  overlap <- get_int environ (label ++ "_GIBL_OVERLAP") 10 ;;
  time <- get_int environ (label ++ "_BLOCK_TIME") 5 ;;
  travel <- get_int environ (label ++ "_BLOCK_TRAVEL") 45 ;;
  let method := get environ (label ++ "_BLOCK_METHOD") "PH" in
  if smoothing mod 2 =? 0 then Err SystemExit
  else Ok (Blocking anomaly_var var smoothing delta limits dist in_gibl overlap time travel method).

(** WeatherRegime.py 27-35, [WeatherRegimeCalculation.__init__].  The default of the directory is looked up before it is known whether it is
    needed. *)
Record regime : Type := Regime {
  wrnum : Z;
  numi : Z;
  NUMPCS : Z;
  wr_tstep : Z;
  wr_outfile_type : string;
  wr_outfile_dir : string;
  wr_outfile : string
}.
Definition WeatherRegimeCalculation (environ : environment) (label : string) : res regime :=
  number_of <- get_int environ (label ++ "_WR_NUMBER") 6 ;;
  clusters <- get_int environ (label ++ "_NUM_CLUSTERS") 20 ;;
  pcs <- get_int environ (label ++ "_NUM_PCS") 10 ;;
  freq <- get_int environ (label ++ "_WR_FREQ") 7 ;;
  let type := get environ (label ++ "_WR_OUTPUT_FILE_TYPE") "text" in
  base <- match environ "SCRIPT_OUTPUT_BASE" with Some text => Ok text | None => Err KeyError end ;;
  let dir := get environ "WR_OUTPUT_FILE_DIR" base in
  let file := get environ (label ++ "_WR_OUTPUT_FILE") (label ++ "_WeatherRegime") in
  Ok (Regime number_of clusters pcs freq type dir file).

(** Blocking_WeatherRegime_util.py 19-27, [parse_steps]. *)
Definition parse_steps (environ : environment) : list string * list string :=
  (split_on "+" (get environ "FCST_STEPS" ""), split_on "+" (get environ "OBS_STEPS" "")).
