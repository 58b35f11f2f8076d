(** The driver of economic cost/loss values: metcalcpy/agg_eclv.py.  Event equalization, reading and writing
    of files are not modelled here. *)
From Coq Require Import Qround.
From Verif Require Import PyBase ColumnModel EventModel UtilModel EclvModel BootModel DriveModel.
From Coq Require Import List.
Open Scope string_scope.

(** [np.arange(step, 1, step)], agg_eclv.py 81, with exact numbers: ceil((1 - step) / step) numbers.  Step
    zero is a ZeroDivisionError. *)
Definition arange (step : Q) : res (list Q) :=
  if Qeq_bool step 0 then Err ZeroDivisionError
  else Ok (map (fun k => step + inject_Z (Z.of_nat k) * step) (seq 0 (Z.to_nat (Qceiling ((1 - step) / step))))).

(** agg_eclv.py 63-66 and 82 *)
Definition line_type_columns (line_type : string) : res (list string) :=
  if String.eqb line_type "ctc" then Ok ["total"; "fy_oy"; "fy_on"; "fn_oy"; "fn_on"]
  else if String.eqb line_type "pct" then Ok ["thresh_i"; "oy_i"; "on_i"]
  else Err KeyError.

(** agg_eclv.py 84-89: [x != 0 or x != 1]. *)
Definition base_rate_flag (add_base_rate : option Z) : Z :=
  let x := match add_base_rate with Some z => z | None => 0%Z end in
  if negb (x =? 0)%Z || negb (x =? 1)%Z then 0%Z else x.

(** agg_eclv.py 235-249: the rows of a point; grouped values are not split. *)
Definition eclv_filters (columns names point : list string) : list (string * list wanted) :=
  flat_map (fun fv => if mem (fst fv) columns then [(fst fv, [want (snd fv)])] else []) (combine names point).

(** agg_eclv.py 252-256: [unique] and [sort] of the thresholds.  Missing thresholds and texts are not
    modelled. *)
Fixpoint uniqueQ (l : list Q) : list Q :=
  match l with
  | [] => []
  | x :: t => x :: filter (fun y => negb (Qeq_bool x y)) (uniqueQ t)
  end.
Definition eclv_thresholds (columns : list string) (rows : tdata) : res (list Q) :=
  if mem "thresh_i" columns then
    ths <- mapM (fun r => c <- get columns r "thresh_i" ;;
                          match c with CNum q => Ok q | _ => Err NotModelled end) rows ;;
    Ok (sortQ (uniqueQ ths))
  else Ok [0].

(** A row of the output: the fields of the point and the columns of HEADER, agg_eclv.py 67. *)
Record eclv_row : Type := EclvRow {
  eclv_point : list (string * string);
  thresh_i : Q; x_pnt_i : Q; y_pnt_i : pyval;
  stat_btcl : pyval; stat_btcu : pyval;
  eclv_nstats : nat
}.
(** Columns of one frame: lists of different lengths are a ValueError of pandas.  The limits stay None
    without bootstrap. *)
Fixpoint eclv_rows (p : list (string * string)) (th : Q) (n : nat) (xs : list Q) (ys lows highs : list pyval) : res (list eclv_row) :=
  match xs, ys, lows, highs with
  | [], [], [], [] => Ok []
  | x :: xs, y :: ys, l :: lows, h :: highs =>
      rest <- eclv_rows p th n xs ys lows highs ;; Ok (EclvRow p th x y l h n :: rest)
  | _, _, _, _ => Err ValueError
  end.

Section EclvDriver.
Variable np_float : bool.
Variable line_type : string.
Variable columns : list string.
Variable data : tdata.
Variable series : list (string * list string).
Variable steps : list Q.
Variable add_base_rate : Z.
Variable names : list string.      (* self.column_names *)
(** None: one iteration.  Otherwise the bootstrap samples drawn from an array (see BootModel.v) and the
    method of the limits. *)
Variable bootstrap : option ((tdata -> list tdata) * ci_method).

(** The entries ['cl'] and ['V'] of a result. *)
Definition curve (e : option eclv) : option (list Q * list pyval) :=
  match e with Some e => Some (e_cl e, map Some (e_V e)) | None => None end.

(** agg_eclv.py 104-133, 150-190: the curve of one threshold with its limits.  The samples are calculated
    without add_base_rate.  The default alpha is 0.05. *)
Definition eclv_result (values : tdata) (th : Q) : res eclv_results :=
  v <- calculate_eclv values names np_float (Some th) line_type steps add_base_rate ;;
  match bootstrap with
  | None => Ok (EclvResults None (curve v) None)
  | Some (samples, method) =>
      catch [KeyError]
        (dist <- mapM (fun s => calculate_eclv s names np_float (Some th) line_type steps 0) (samples values) ;;
         get_confidence_interval_and_value_eclv (map curve dist) (curve v) 0.05 method)
        (EclvResults None None None)
  end.

(** agg_eclv.py 230-269: one point.  Without rows the results are no list: subscripting them is a
    TypeError, as is the subscript of a value None.  [series_data[column_names]] is a KeyError if a column
    is missing. *)
Definition eclv_one (point : list string) : res (list eclv_row) :=
  let fields := combine (map fst series) point in
  pd <- point_data columns (eclv_filters columns (map fst series) point) data ;;
  let rows := map snd pd in
  thresholds <- eclv_thresholds columns rows ;;
  results <- (match rows with
              | [] => Ok (map (fun _ => Err TypeError) thresholds)
              | _ =>
                  values <- mapM (fun r => mapM (get columns r) names) rows ;;
                  rs <- mapM (eclv_result values) thresholds ;;
                  Ok (map Ok rs)
              end) ;;
  blocks <- mapM (fun tr : Q * res eclv_results =>
    r <- snd tr ;;
    match eclv_value r with
    | None => Err TypeError
    | Some (cl, v) =>
        let n := (length steps + Z.to_nat add_base_rate)%nat in
        let limits (o : option (list pyval)) := match o with Some l => l | None => repeat None n end in
        if Nat.eqb (length cl) n
        then eclv_rows fields (fst tr) (length rows) cl v (limits (eclv_lower r)) (limits (eclv_upper r))
        else Err ValueError
    end) (combine thresholds results) ;;
  Ok (concat blocks).
End EclvDriver.

(** agg_eclv.py 69-102 and 209-272. *)
Definition aggregate_eclv (np_float : bool) (line_type : string) (columns : list string) (data : tdata)
  (series : list (string * list string)) (cl_step : Q) (add_base_rate : option Z)
  (bootstrap : option ((tdata -> list tdata) * ci_method)) : res (list eclv_row) :=
  steps <- arange cl_step ;;
  names <- line_type_columns line_type ;;
  match data with
  | [] => Ok []
  | _ =>
      blocks <- mapM (eclv_one np_float line_type columns data series steps (base_rate_flag add_base_rate) names bootstrap)
                  (product (map snd series)) ;;
      Ok (concat blocks)
  end.
