(** Probability forecasts: metcalcpy/util/pstd_statistics.py. *)
From Coq Require Import Ascii.
From Verif Require Import PyBase ColumnModel EclvModel.
Open Scope string_scope.
Open Scope Q_scope.

(** [sub in s]. *)
Fixpoint contains (sub s : string) : bool :=
  String.prefix sub s || match s with EmptyString => false | String _ rest => contains sub rest end.

(** numpy float arithmetic; [None] is NaN, which spreads. *)
Definition nan_op (f : Q -> Q -> Q) (a b : option Q) : option Q :=
  match a, b with Some x, Some y => Some (f x y) | _, _ => None end.
(** A quotient: a zero divisor is a warning turned into an exception, unless the numerator is NaN. *)
Definition nan_div (a b : option Q) : res (option Q) :=
  match a, b with
  | Some x, Some y => if Qeq_bool y 0 then Err PyWarning else Ok (Some (x / y))
  | _, _ => Ok None
  end.
(** [round_half_up] of a float: [math.floor(nan)] is a ValueError. *)
Definition nan_round (v : option Q) : res pyval :=
  match v with Some q => Ok (Some (round_half_up q PRECISION)) | None => Err ValueError end.
(** Builtin [sum] of floats. *)
Definition py_sum (l : list (option Q)) : option Q := fold_left (nan_op Qplus) l (Some 0).

(** A row of the data frame built by [_calc_common_stats]. *)
Record bin_row : Type := BinRow {
  thresh_i : cell; oy_i : option Q; on_i : option Q; n_i : option Q; o_bar_i : option Q
}.

Section Stats.
Variables (data : tdata) (columns : list string).

(** pstd_statistics.py 343-355: the three lists filled in the order of the columns. *)
Fixpoint collect (cols : list string) : res (list cell * list pyval * list pyval) :=
  match cols with
  | [] => Ok ([], [], [])
  | c :: rest =>
      if contains "oy_i" c then
        s <- sum_column_data_by_name data columns c true ;;
        r <- collect rest ;; let '(th, oy, on) := r in Ok (th, s :: oy, on)
      else if contains "on_i" c then
        s <- sum_column_data_by_name data columns c true ;;
        r <- collect rest ;; let '(th, oy, on) := r in Ok (th, oy, s :: on)
      else if contains "thresh_i" c then
        match data, index_of c columns with
        | first :: _, Some i =>
            x <- cell_at i first ;;
            r <- collect rest ;; let '(th, oy, on) := r in Ok (x :: th, oy, on)
        | _, _ => Err IndexError
        end
      else collect rest
  end.

(** A column of the data frame made of [None] only stays a column of objects, so adding to it is a
    TypeError; among numbers [None] becomes NaN. *)
Definition only_none (l : list pyval) : bool :=
  match l with [] => false | _ => forallb is_nan l end.

Fixpoint rows_of (th : list cell) (oy on : list pyval) : list (cell * option Q * option Q) :=
  match th, oy, on with
  | t :: th', y :: oy', n :: on' => (t, y, n) :: rows_of th' oy' on'
  | _, _, _ => []
  end.

(** [df['n_i'] != 0] (NaN is kept), then [o_bar_i]; the divisor is not zero. *)
Fixpoint used_rows (l : list (cell * option Q * option Q)) : res (list bin_row) :=
  match l with
  | [] => Ok []
  | (t, y, n) :: rest =>
      let total := nan_op Qplus y n in
      match total with
      | Some q => if Qeq_bool q 0 then used_rows rest
                  else o <- nan_div y total ;; r <- used_rows rest ;; Ok (BinRow t y n total o :: r)
      | None => o <- nan_div y total ;; r <- used_rows rest ;; Ok (BinRow t y n total o :: r)
      end
  end.

(** pstd_statistics.py 329-369, [_calc_common_stats].  Lists of different lengths are a ValueError
    of [pd.DataFrame].  Pandas' warning about writing to a copy is not raised, because the frame
    that was copied is no longer referenced. *)
Definition calc_common_stats : res (list bin_row) :=
  c <- collect columns ;;
  let '(th, oy, on) := c in
  if negb (Nat.eqb (length th) (length oy) && Nat.eqb (length oy) (length on)) then Err ValueError
  else if only_none oy || only_none on then Err TypeError
  else used_rows (rows_of th oy on).

(** [df['n_i'].sum()], [df['oy_i'].sum()]: NaN is skipped. *)
Definition t_table_of (df : list bin_row) : Q := nansum (map n_i df).
Definition oy_sum (df : list bin_row) : Q := nansum (map oy_i df).

(** pstd_statistics.py 292-298, [calc_uncertainty]. *)
Definition calc_uncertainty (o_bar_table : Q) : Q := o_bar_table * (1 - o_bar_table).

(** A threshold read as a float; text cannot be subtracted from. *)
Definition thresh_value (c : cell) : res (option Q) :=
  match c with CNum q => Ok (Some q) | CMiss => Ok None | CStr _ => Err TypeError end.

(** pstd_statistics.py 301-312, [calc_resolution]; the term of one row. *)
Definition resolution_term (o_bar : Q) (r : bin_row) : option Q :=
  let d := nan_op Qminus (o_bar_i r) (Some o_bar) in
  nan_op Qmult (nan_op Qmult (n_i r) d) d.
Definition calc_resolution (t_table : Q) (df : list bin_row) (o_bar : Q) : res (option Q) :=
  nan_div (py_sum (map (resolution_term o_bar) df)) (Some t_table).

(** pstd_statistics.py 315-326, [calc_reliability]. *)
Definition reliability_term (r : bin_row) : res (option Q) :=
  t <- thresh_value (thresh_i r) ;;
  let d := nan_op Qminus t (o_bar_i r) in
  Ok (nan_op Qmult (nan_op Qmult (n_i r) d) d).
Definition calc_reliability (t_table : Q) (df : list bin_row) : res (option Q) :=
  terms <- mapM reliability_term df ;;
  nan_div (py_sum terms) (Some t_table).

(** pstd_statistics.py 93-115. *)
Definition calculate_pstd_baser : res pyval :=
  catch std_exns
    (df <- calc_common_stats ;;
     baser <- nan_div (Some (oy_sum df)) (Some (t_table_of df)) ;;
     nan_round baser) None.

(** pstd_statistics.py 118-143. *)
Definition calculate_pstd_reliability : res pyval :=
  catch std_exns
    (df <- calc_common_stats ;;
     reliability <- calc_reliability (t_table_of df) df ;;
     nan_round reliability) None.

(** pstd_statistics.py 174-198. *)
Definition calculate_pstd_uncertainty : res pyval :=
  catch std_exns
    (df <- calc_common_stats ;;
     o_bar_table <- nan_div (Some (oy_sum df)) (Some (t_table_of df)) ;;
     match o_bar_table with
     | Some o => nan_round (Some (calc_uncertainty o))
     | None => Err ValueError
     end) None.

(** [input_data[0, get_column_index_by_name(columns, 'o_bar')]]: no row is an IndexError, an absent
    column gives an array ([None] as index), which is never used. *)
Definition o_bar_cell : res unit :=
  match data with [] => Err IndexError | _ => Ok tt end.

(** pstd_statistics.py 146-171, 25-56, 59-90.  [t_table] is a number and has no [reset_index]. *)
Definition calculate_pstd_resolution : res pyval :=
  catch std_exns
    (df <- calc_common_stats ;;
     _ <- o_bar_cell ;;
     Err AttributeError) None.
Definition calculate_pstd_brier : res pyval :=
  catch std_exns
    (df <- calc_common_stats ;;
     _ <- nan_div (Some (oy_sum df)) (Some (t_table_of df)) ;;
     _ <- o_bar_cell ;;
     Err AttributeError) None.
Definition calculate_pstd_bss_smpl : res pyval := calculate_pstd_brier.

(** [sum(input_data[:, i])] of a column of objects: a missing value is a TypeError ([None]) or makes
    the sum NaN and the rounding a ValueError; both are caught.  An absent column gives an array,
    whose rounding is a TypeError. *)
Definition builtin_sum (name : string) : res pyval :=
  match index_of name columns with
  | None => Err TypeError
  | Some i =>
      cs <- column_at data i ;;
      l <- mapM (fun c => match c with CNum q => Ok q | CMiss => Err TypeError | CStr _ => Err TypeError end) cs ;;
      Ok (Some (fold_left Qplus l 0))
  end.

(** pstd_statistics.py 227-250. *)
Definition calculate_pstd_ni : res pyval :=
  catch std_exns (pyround (builtin_sum "oy_i" [+] builtin_sum "on_i")) None.
(** pstd_statistics.py 201-224. *)
Definition calculate_pstd_calibration : res pyval :=
  catch std_exns
    (oy <- builtin_sum "oy_i" ;;
     n <- calculate_pstd_ni ;;
     pyround (Ok oy [/] Ok n)) None.

(** A row of the ROC table: threshold, pody, pofd. *)
Record roc_row : Type := RocRow { roc_thresh : Q; roc_pody : option Q; roc_pofd : option Q }.

(** [np.unique] of a sorted array. *)
Fixpoint uniqQ (l : list Q) : list Q :=
  match l with
  | x :: ((y :: _) as t) => if Qeq_bool x y then uniqQ t else x :: uniqQ t
  | _ => l
  end.

(** The thresholds of the frame.  With a missing one, some cells of the ROC table stay [None] and
    adding them is a TypeError.  Textual thresholds are not modelled. *)
Definition number_of (c : cell) : res Q :=
  match c with CNum q => Ok q | CMiss => Err TypeError | CStr _ => Err NotModelled end.

(** [sum(data[data['thresh_i'] > thresh]['oy_i'])] and its variants. *)
Fixpoint sum_where (keep : Q -> bool) (l : list (Q * option Q)) (acc : option Q) : option Q :=
  match l with
  | [] => acc
  | (t, v) :: rest => sum_where keep rest (if keep t then nan_op Qplus acc v else acc)
  end.

(** pstd_statistics.py 372-416, [_calc_pct_roc].  An undefined ratio raises (a warning turned into
    an exception, or ZeroDivisionError for Python numbers). *)
Definition calc_pct_roc (df : list bin_row) : res (list roc_row) :=
  ts <- mapM (fun r => number_of (thresh_i r)) df ;;
  let oys := combine ts (map oy_i df) in
  let ons := combine ts (map on_i df) in
  let list_thresh := uniqQ (sortQ ts) in
  let rate l th :=
    let above := sum_where (fun t => Qlt_bool th t) l (Some 0) in
    let below := sum_where (fun t => Qle_bool t th) l (Some 0) in
    nan_div above (nan_op Qplus above below) in
  pody <- mapM (rate oys) list_thresh ;;
  pofd <- mapM (rate ons) list_thresh ;;
  Ok (map (fun x => RocRow (fst x) (fst (snd x)) (snd (snd x))) (combine list_thresh (combine pody pofd))).

(** pstd_statistics.py 272-286: the points with (1,1) in front and (0,0) at the end, then the sum of
    the trapezoids. *)
Fixpoint trapezoids (p f : option Q) (l : list (option Q * option Q)) (acc : option Q) : option Q :=
  match l with
  | [] => acc
  | (p', f') :: rest =>
      trapezoids p' f' rest
        (nan_op Qplus acc (nan_op Qmult (nan_op Qmult (Some (1 # 2)) (nan_op Qplus p p')) (nan_op Qminus f f')))
  end.

(** pstd_statistics.py 253-289, [calculate_pstd_roc_auc]; nothing is caught. *)
Definition calculate_pstd_roc_auc : res pyval :=
  df <- calc_common_stats ;;
  roc <- calc_pct_roc df ;;
  nan_round (trapezoids (Some 1) (Some 1)
               (map (fun r => (roc_pody r, roc_pofd r)) roc ++ [(Some 0, Some 0)])%list (Some 0)).

(** pstd_statistics.py 419-433, [calculate_pct_total]. *)
Definition calculate_pct_total : res pyval := pyround (sum_column_data_by_name data columns "total" true).
End Stats.
