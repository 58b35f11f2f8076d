(** The driver of bootstrapped statistics of objects: metcalcpy/agg_stat_bootstrap.py.  Event equalization,
    reading and writing of files are not modelled here.  The table is read from a text file, so a cell is a
    number, a text or missing; the names of the fields are not those of the result columns. *)
From Verif Require Import PyBase ColumnModel EventModel UtilModel BootModel DriveModel.
From Verif Require RocModel AggModel.
From Coq Require Import List.
Open Scope string_scope.

(** A row of the output frame, agg_stat_bootstrap.py 85-105: the fields of the point, and the result, which
    is None at first. *)
Record mode_row : Type := ModeRow {
  mode_point : list (string * string);
  mode_var : option string;
  mode_result : results;
  mode_nstats : option nat
}.

(** [frame[name]] is a KeyError if there is no such column. *)
Definition has_columns (columns names : list string) : res unit :=
  if forallb (fun n => mem n columns) names then Ok tt else Err KeyError.

(** [np.sort(np.unique(l))] of texts. *)
Definition unique_sort (l : list string) : list string := RocModel.np_unique l.

(** The first row that passes a test is replaced; [index[0]] of no row is an IndexError. *)
Fixpoint set_first (test : mode_row -> bool) (f : mode_row -> mode_row) (l : list mode_row) : res (list mode_row) :=
  match l with
  | [] => Err IndexError
  | o :: t => if test o then Ok (f o :: t) else t' <- set_first test f t ;; Ok (o :: t')
  end.

Section ModeDriver.
(** [astype(str)] of a cell of a column. *)
Variable text : string -> cell -> string.
(** The statistic (the name in lower case) of some rows; a frame and an array give the same value. *)
Variable calc : string -> tdata -> res pyval.
(** None: one iteration.  Otherwise the samples drawn from the list of cases (see BootModel.v) and the method
    of the limits. *)
Variable bootstrap : option ((list string -> list (list string)) * ci_method).
Variable columns : list string.
Variable data : tdata.

(** agg_stat_bootstrap.py 290-292: the case of a row.  The column is appended to the table; the statistics do
    not see it, as they use the names of the columns from before. *)
Definition case_of (indy : string) (r : row) : res string :=
  v <- get columns r "fcst_valid" ;;
  i <- get columns r indy ;;
  Ok (text "fcst_valid" v ++ "#" ++ text indy i).

(** Rows whose case is in a list. *)
Definition cases_in (cases : list string) (rows : list (string * row)) : tdata :=
  map snd (filter (fun cr => mem (fst cr) cases) rows).

(** bootstrap.py 279-286: the value with bootstrap.  The selected rows, not the cases, are given to
    [_calc_stats] (agg_stat_bootstrap.py 244-266), which flattens them: rows are taken whose case is in a
    cell of these rows, among them the case itself. *)
Definition cells_in (rows : list (string * row)) (r : string * row) : bool :=
  existsb (fun cr => String.eqb (fst cr) (fst r) ||
                     existsb (fun c => match c with CStr s => String.eqb s (fst r) | _ => false end) (snd cr)) rows.

(** agg_stat_bootstrap.py 221-274 and bootstrap.py 243-307.  A sample is a list of cases, but rows are
    selected with [isin]. *)
Definition mode_stats (indy stat : string) (rows : tdata) (cases : list string) : res results :=
  _ <- has_columns columns (sort_fields columns) ;;
  sorted <- sort_data columns rows ;;
  tagged <- mapM (fun r => c <- case_of indy r ;; Ok (c, r)) sorted ;;
  match bootstrap with
  | None => v <- calc stat (cases_in cases tagged) ;; Ok (BootstrapResults None v None)
  | Some (samples, method) =>
      catch [KeyError]
        (let current := filter (fun cr => mem (fst cr) cases) tagged in
         v <- calc stat (map snd (filter (cells_in current) tagged)) ;;
         dist <- mapM (fun s => calc stat (cases_in s tagged)) (samples cases) ;;
         get_confidence_interval_and_value dist v 0.05 method)
        (BootstrapResults None None None)
  end.

(** agg_stat_bootstrap.py 144-168: the rows of a point of the series variables. *)
Definition mode_rows (rows : tdata) (series : list (string * list string)) (point vars : list string) : res tdata :=
  _ <- has_columns columns (map fst series) ;;
  pd <- point_data columns (point_filters columns (map fst series) point vars) rows ;;
  Ok (map snd pd).

(** agg_stat_bootstrap.py 144-175: the cases of all points are added to those of the values of the independent
    variable before. *)
Fixpoint mode_cases (rows : tdata) (rq : request) (points : list (list string)) (cases : list string) : res (list string) :=
  match points with
  | [] => Ok cases
  | p :: rest =>
      pd <- mode_rows rows (series_val rq) p (fcst_vars rq) ;;
      cs <- mapM (case_of (indy_var rq)) pd ;;
      mode_cases rows rq rest (unique_sort (cases ++ cs)%list)
  end.

(** agg_stat_bootstrap.py 199, 207-209: the row of the output is sought by the members of the values, numbers
    as numbers; the cells of the output frame are texts. *)
Definition mode_test (series : list (string * list string)) (indy indy_val : string) (point : list string) (o : mode_row) : bool :=
  forallb (fun nv => match AggModel.assoc (fst nv) (mode_point o) with
                     | Some t => isin (filter_list (snd nv)) (CStr t)
                     | None => false
                     end) (combine (map fst series) point) &&
  match AggModel.assoc indy (mode_point o) with Some t => String.eqb t indy_val | None => false end.

(** agg_stat_bootstrap.py 177-216: statistics and points for one value of the independent variable.  Here
    rows are not selected by the forecast variable. *)
Definition mode_one (rows : tdata) (rq : request) (var : option string) (indy_val : string) (cases : list string)
  (sp : string * list string) (out : list mode_row) : res (list mode_row) :=
  pd <- mode_rows rows (series_val rq) (snd sp) [] ;;
  r <- mode_stats (indy_var rq) (lower (fst sp)) pd cases ;;
  set_first (mode_test (series_val rq) (indy_var rq) indy_val (snd sp))
    (fun o => ModeRow (mode_point o) var r (Some (length pd))) out.
Fixpoint mode_all (rows : tdata) (rq : request) (var : option string) (indy_val : string) (cases : list string)
  (keys : list (string * list string)) (out : list mode_row) : res (list mode_row) :=
  match keys with
  | [] => Ok out
  | k :: rest => out' <- mode_one rows rq var indy_val cases k out ;; mode_all rows rq var indy_val cases rest out'
  end.
Fixpoint mode_indys (rq : request) (var : option string) (indys : list string) (cases : list string) (out : list mode_row)
  : res (list mode_row) :=
  match indys with
  | [] => Ok out
  | i :: rest =>
      let points := product (map snd (series_val rq)) in
      pd <- point_data columns [(indy_var rq, [want i])] data ;;
      let rows := map snd pd in
      cases' <- mode_cases rows rq points cases ;;
      out' <- mode_all rows rq var i cases' (flat_map (fun s => map (fun p => (s, p)) points) (list_stat rq)) out ;;
      mode_indys rq var rest cases' out'
  end.

(** agg_stat_bootstrap.py 107-219 *)
Definition mode_axis (rq : request) : res (list mode_row) :=
  let fields := dict_set "stat_name" (list_stat rq) (dict_set (indy_var rq) (indy_vals rq) (series_val rq)) in
  let var := match fcst_vars rq with v :: _ => if mem "fcst_var" columns then Some v else None | [] => None end in
  mode_indys rq var (indy_vals rq) []
    (map (fun p => ModeRow (combine (map fst fields) p) None nothing None) (product (map snd fields))).

(** agg_stat_bootstrap.py 276-299.  Both axes have the same independent variable. *)
Definition mode_values (rq1 rq2 : request) : res (list mode_row) :=
  match data with
  | [] => Ok []
  | _ =>
      _ <- has_columns columns ["fcst_valid"; indy_var rq1] ;;
      o1 <- mode_axis rq1 ;;
      match series_val rq2 with
      | [] => Ok o1
      | _ => o2 <- mode_axis rq2 ;; Ok (o1 ++ o2)%list
      end
  end.
End ModeDriver.
