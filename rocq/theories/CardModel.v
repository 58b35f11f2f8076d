(** The driver of scorecards: metcalcpy/scorecard.py.  Not modelled: reading and writing of files (a table
    without rows is a ValueError when it is read, lines 86-96; without any row of output no file is written).
    The table is read from a text file, so a cell is a number, a text or missing.  The parameters are those of
    [request] without [fcst_vars]. *)
From Coq Require Import Reals Qreals.
From Verif Require Import PyBase ColumnModel EventModel UtilModel RealBase SeriesModel ScoreModel BootModel DriveModel.
From Verif Require AggModel.
From Coq Require Import List.
Open Scope string_scope.

(** scorecard.py 116-123: the values of all fields; here the statistic comes before the independent variable. *)
Definition card_fields_values (rq : request) : list (string * list string) :=
  let with_stat := dict_set "stat_name" (list_stat rq) (series_val rq) in
  match indy_vals rq with [] => with_stat | _ => dict_set (indy_var rq) (indy_vals rq) with_stat end.

(** scorecard.py 134-163: the rows of a point.  Line 158 takes the column of every series variable: KeyError
    if there is none.  The splitting of values is that of agg_stat.py 1022-1034. *)
Definition card_point (columns : list string) (data : tdata) (rq : request) (point : list string) : res tdata :=
  _ <- (if forallb (fun n => mem n columns) (map fst (series_val rq)) then Ok tt else Err KeyError) ;;
  pd <- point_data columns (point_filters columns (map fst (card_fields_values rq)) point []) data ;;
  Ok (map snd pd).

(** scorecard.py 55 *)
Definition COLUMNS_TO_REMOVE : list string :=
  ["equalize"; "stat_ncl"; "stat_ncu"; "stat_bcl"; "stat_bcu"; "fcst_valid_beg"; "fcst_init_beg"].

(** A cell of the output: kept from the table, the text of a cell ([astype(str)]), a given text, or the
    statistic. *)
Inductive card_cell : Type := Kept (c : cell) | TextOf (c : cell) | Given (s : string) | Score (o : out).
Definition card_row : Type := list (string * card_cell).

(** [ds['stat_value'].tolist()]; texts are not modelled. *)
Definition numbers (cells : list cell) : res (list pyval) :=
  mapM (fun c => match c with CNum q => Ok (Some q) | CMiss => Ok None | CStr _ => Err NotModelled end) cells.

Section Card.
(** Student's distribution function of scipy. *)
Variable cdf : Z -> R -> R.
(** [params['stat_flag'] == 'EMC'] and [params['ndays']]. *)
Variable emc : bool.
Variable ndays : Z.

(** scorecard.py 280-299.  The significance is always that of the first statistic of the request.  The
    difference of series of different length is None, and [statistics.mean(None)] a TypeError; the mean of
    values with NaN is NaN.  For other operations the value is None.  Not modelled: NaN with the NCAR method. *)
Definition card_stat (stats : list string) (operation : string) (v1 v2 : list pyval) : res out :=
  if String.eqb operation "DIFF_SIG" then
    match stats with
    | [] => Err NotModelled
    | stat :: _ =>
        if emc then
          r <- calculate_diff_sig_emc ndays stat v1 v2 ;;
          Ok (match r with Some q => OutNum (Q2R q) | None => OutNone end)
        else match all_present v1, all_present v2 with
             | Some a, Some b => calculate_diff_sig_ncar cdf stat a b
             | _, _ => Err NotModelled
             end
    end
  else if String.eqb operation "DIFF" then
    if Nat.eqb (length v1) (length v2) then
      match all_present v1, all_present v2 with
      | Some a, Some b => m <- st_mean (zip_with Qminus a b) ;; Ok (OutNum (Q2R m))
      | _, _ => Ok OutNaN
      end
    else Err TypeError
  else if String.eqb operation "SINGLE" then
    match all_present v1 with
    | Some a => m <- st_mean a ;; Ok (OutNum (Q2R m))
    | None => Ok OutNaN
    end
  else Ok OutNone.

(** scorecard.py 301-324: the first row of the first series without some columns, with the statistic, the
    last of the listed leads that is named in the title, and the name of the curve as model (a new last column
    if there is none).  KeyError if the lead is no series variable. *)
Definition card_out (columns : list string) (series : list (string * list string)) (first_words : list string) (name : string)
  (first : row) (value : out) : res card_row :=
  leads <- UtilModel.lookup "fcst_lead" series ;;
  let lead := find (fun l => mem l first_words) (rev leads) in
  let kept := filter (fun nc => negb (mem (fst nc) COLUMNS_TO_REMOVE)) (combine columns first) in
  let set nc :=
    if String.eqb (fst nc) "model" then (fst nc, Given name)
    else if String.eqb (fst nc) "stat_value" then (fst nc, Score value)
    else if String.eqb (fst nc) "fcst_lead" then (fst nc, match lead with Some l => Given l | None => TextOf (snd nc) end)
    else (fst nc, Kept (snd nc)) in
  Ok (map set kept ++ if mem "model" columns then [] else [("model", Given name)])%list.

(** scorecard.py 235-324: the score of the rows of both series.  Lines 241-270 check the first series only.
    Missing values and columns with both numbers and texts among the times, leads and statistics are not
    modelled. *)
Definition card_pair (columns : list string) (rq : request) (comp : derived_component) (name : string) (ds_1 ds_2 : tdata)
  : res (option card_row) :=
  match ds_1, ds_2 with
  | [], _ | _, [] => Ok None
  | first :: _, _ =>
      let op := derived_operation comp in
      _ <- (if String.eqb op "SINGLE" then Ok tt else validate columns ds_1 1) ;;
      sorted1 <- sort_data columns ds_1 ;;
      sorted2 <- sort_data columns ds_2 ;;
      c1 <- mapM (fun r => get columns r "stat_value") sorted1 ;;
      c2 <- mapM (fun r => get columns r "stat_value") sorted2 ;;
      v1 <- numbers c1 ;;
      v2 <- numbers c2 ;;
      value <- card_stat (list_stat rq) op v1 v2 ;;
      o <- card_out columns (series_val rq) (first_component comp) name first value ;;
      Ok (Some o)
  end.
(** scorecard.py 188-324, [_get_stats_for_derived].  The names of groups (211-213, 221-223) are always an empty
    dictionary. *)
Definition card_derived (columns : list string) (rq : request) (known : list (string * derived_component))
  (series : list string) (dist : list (list string * tdata)) : res (option card_row) :=
  let name := derived_name series in
  comp <- UtilModel.lookup name known ;;
  let perm1 := permuted [] (first_component comp) series in
  let perm2 := permuted [] (second_component comp) series in
  match find_pair dist perm1 perm2 None None with
  | (Some ds_1, Some ds_2) => card_pair columns rq comp name ds_1 ds_2
  | _ => Err AttributeError
  end.

(** scorecard.py 126-175: the loop over all points. *)
Fixpoint card_loop (columns : list string) (data : tdata) (rq : request) (known : list (string * derived_component))
  (points : list (list string)) (dist : list (list string * tdata)) : res (list card_row) :=
  match points with
  | [] => Ok []
  | p :: rest =>
      if is_derived_point (Some p) then
        r <- card_derived columns rq known p dist ;;
        out <- card_loop columns data rq known rest dist ;;
        Ok (match r with Some o => o :: out | None => out end)
      else
        rows <- card_point columns data rq p ;;
        card_loop columns data rq known rest (dist_set p rows dist)
  end.

(** scorecard.py 106-186, [calculate_scorecard_data].  [_get_derived_points] (420-474) has the text of
    agg_stat.py 913-967, which is [get_derived_points]. *)
Definition calculate_scorecard (columns : list string) (data : tdata) (rq : request) : res (list card_row) :=
  match data with
  | [] => Err ValueError
  | _ =>
      let points := product (map snd (card_fields_values rq)) in
      dp <- (match derived_series rq with
             | [] => Ok ([], [])
             | ds => get_derived_points (series_val rq) (indy_var rq) (indy_vals rq) ds []
             end) ;;
      card_loop columns data rq (fst dp) (points ++ snd dp)%list []
  end.
End Card.
