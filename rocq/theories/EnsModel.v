(** Ensemble, ranked-probability, neighbourhood and gradient line types:
    metcalcpy/util/ecnt_statistics.py, rps_statistics.py, nbrcnt_statistics.py,
    grad_statistics.py, and their preparation in metcalcpy/agg_stat.py 479-557. *)
From Coq Require Import Reals Qreals Qabs.
From Verif Require Import PyBase ColumnModel RealBase AggModel Sl1l2Model.
Open Scope string_scope.
Open Scope Q_scope.

(** Position of [df[name]]: a missing column is a KeyError. *)
Definition col_index (columns : list string) (name : string) : res nat :=
  match index_of name columns with Some i => Ok i | None => Err KeyError end.

(** [df[name] = array]: an existing column is replaced, otherwise a column is appended.
    The new cells are computed row by row from three columns. *)
Definition assign3 (table : tdata * list string) (name a b c : string)
  (f : cell -> cell -> cell -> res cell) : res (tdata * list string) :=
  let '(data, columns) := table in
  i <- col_index columns a ;; j <- col_index columns b ;; k <- col_index columns c ;;
  let new r := x <- cell_at i r ;; y <- cell_at j r ;; z <- cell_at k r ;; f x y z in
  match index_of name columns with
  | Some t => d <- mapM (fun r => n <- new r ;; Ok (set_nth t n r)) data ;; Ok (d, columns)
  | None => d <- mapM (fun r => n <- new r ;; Ok (r ++ [n])%list) data ;; Ok (d, columns ++ [name])%list
  end.

(** [1 - x] on a float column. *)
Definition cell_complement (c : cell) : res cell :=
  match c with
  | CNum q => Ok (CNum (1 - q))
  | CMiss => Ok CMiss
  | CStr _ => Err TypeError
  end.

(** Quotient of two float columns: 0/0 is NaN; a non-zero number over zero is infinite, which
    the model does not follow. *)
Definition cell_div (a b : cell) : res cell :=
  match a, b with
  | CStr _, _ | _, CStr _ => Err TypeError
  | CNum p, CNum q =>
      if Qeq_bool q 0 then (if Qeq_bool p 0 then Ok CMiss else Err NotModelled) else Ok (CNum (p / q))
  | _, _ => Ok CMiss
  end.

(** [(x * y) * n]. *)
Definition times_times (x y n : cell) : res cell := p <- cell_times x y ;; cell_times p n.
(** [x * n]. *)
Definition times_third (x _ n : cell) : res cell := cell_times x n.
(** [(x / (1 - y)) * n]. *)
Definition over_complement (x y n : cell) : res cell :=
  d <- cell_complement y ;; p <- cell_div x d ;; cell_times p n.

(** agg_stat.py 503-514: the loop over [STATISTIC_TO_FIELDS[statistic]] of the ensemble lines. *)
Fixpoint ecnt_scale (cols : list string) (table : tdata * list string) : res (tdata * list string) :=
  match cols with
  | [] => Ok table
  | c :: rest =>
      let weight := if String.eqb c "me_ge_obs" then "n_ge_obs"
                    else if String.eqb c "me_lt_obs" then "n_lt_obs" else "total" in
      t <- assign3 table c c c weight times_third ;; ecnt_scale rest t
  end.

(** agg_stat.py 479-514 [_prepare_ecnt_data].  The squares are taken of the columns as read; the
    new columns are appended afterwards, which is the same because none of them is read again.
    Line 491 squares 'spread_oerr' for 'variance_plus_oerr'. *)
Definition prepare_ecnt (statistic : string) (table : tdata * list string) : res (tdata * list string) :=
  t1 <- assign3 table "mse" "rmse" "rmse" "total" times_times ;;
  t2 <- assign3 t1 "mse_oerr" "rmse_oerr" "rmse_oerr" "total" times_times ;;
  t3 <- assign3 t2 "variance" "spread" "spread" "total" times_times ;;
  t4 <- assign3 t3 "variance_oerr" "spread_oerr" "spread_oerr" "total" times_times ;;
  t5 <- assign3 t4 "variance_plus_oerr" "spread_oerr" "spread_oerr" "total" times_times ;;
  match assoc statistic STATISTIC_TO_FIELDS with
  | Some cols => ecnt_scale cols t5
  | None => Ok t5
  end.

(** agg_stat.py 516-522 [_prepare_rps_data]. *)
Definition prepare_rps (table : tdata * list string) : res (tdata * list string) :=
  t1 <- assign3 table "rps_climo" "rps" "rpss" "total" over_complement ;;
  t2 <- assign3 t1 "rps" "rps" "rps" "total" times_third ;;
  assign3 t2 "rps_comp" "rps_comp" "rps_comp" "total" times_third.

(** agg_stat.py 540-557 [_prepare_nbr_cnt_data].  'fss' is replaced before 'fbs' because both
    are computed from the columns as read; 'o_rate' is not touched by the code. *)
Definition prepare_nbr_cnt (table : tdata * list string) : res (tdata * list string) :=
  t1 <- assign3 table "fss" "fbs" "fss" "total" over_complement ;;
  t2 <- assign3 t1 "fbs" "fbs" "fbs" "total" times_third ;;
  assign3 t2 "f_rate" "f_rate" "f_rate" "total" times_third.

Section Stats.
Variables (data : tdata) (columns : list string) (aggregation : bool).
Notation colsum := (colsum data columns).
Notation mean_stat := (mean_stat data columns aggregation).

(** [sum(column) / total]. *)
Definition column_mean (total : pyval) (name : string) : res pyval := colsum name [//] Ok total.
(** [total = get_total_values(...)] at the beginning of a protected body. *)
Definition with_total (body : pyval -> res pyval) : res pyval :=
  catch std_exns (total <- get_total data columns aggregation ;; body total) None.

(** nbrcnt_statistics.py 22-44, 130-152, 155-177. *)
Definition calculate_nbr_fbs := mean_stat "fbs".
Definition calculate_nbr_f_rate := mean_stat "f_rate".
Definition calculate_nbr_o_rate := mean_stat "o_rate".
(** nbrcnt_statistics.py 47-71. *)
Definition calculate_nbr_fss : res pyval :=
  with_total (fun total =>
    fss_den <- column_mean total "fss" ;;
    fbs <- column_mean total "fbs" ;;
    pyround (pylit 1 [-] (Ok fbs [//] Ok fss_den))).
(** nbrcnt_statistics.py 74-101. *)
Definition calculate_nbr_afss : res pyval :=
  with_total (fun total =>
    f_rate <- column_mean total "f_rate" ;;
    o_rate <- column_mean total "o_rate" ;;
    afss_num <- pylit 2 [*] Ok f_rate [*] Ok o_rate ;;
    afss_den <- (Ok f_rate [*] Ok f_rate) [+] (Ok o_rate [*] Ok o_rate) ;;
    pyround (Ok afss_num [//] Ok afss_den)).
(** nbrcnt_statistics.py 104-127. *)
Definition calculate_nbr_ufss : res pyval :=
  with_total (fun total =>
    o_rate <- column_mean total "o_rate" ;;
    pyround (pylit (1 # 2) [+] (Ok o_rate [//] pylit 2))).

(** rps_statistics.py 22-44, 47-70. *)
Definition calculate_rps := mean_stat "rps".
Definition calculate_rps_comp := mean_stat "rps_comp".
(** rps_statistics.py 73-97. *)
Definition calculate_rpss : res pyval :=
  with_total (fun total =>
    rps <- column_mean total "rps" ;;
    rps_climo <- column_mean total "rps_climo" ;;
    pyround (pylit 1 [-] (Ok rps [//] Ok rps_climo))).

(** ecnt_statistics.py 139-159 [weighted_average] is the same body. *)
Definition weighted_average := mean_stat.
(** ecnt_statistics.py 20-53, 83-136, 162-178, 208-278, 335-350. *)
Definition calculate_ecnt_crps := weighted_average "crps".
Definition calculate_ecnt_crpscl := weighted_average "crpscl".
Definition calculate_ecnt_crps_emp := weighted_average "crps_emp".
Definition calculate_ecnt_crps_emp_fair := weighted_average "crps_emp_fair".
Definition calculate_ecnt_spread_md := weighted_average "spread_md".
Definition calculate_ecnt_crpscl_emp := weighted_average "crpscl_emp".
Definition calculate_ecnt_ign := weighted_average "ign".
Definition calculate_ecnt_me := weighted_average "me".
Definition calculate_ecnt_mae := weighted_average "mae".
Definition calculate_ecnt_mae_oerr := weighted_average "mae_oerr".
Definition calculate_ecnt_me_oerr := weighted_average "me_oerr".
(** ecnt_statistics.py 56-81. *)
Definition calculate_ecnt_crpss : res pyval :=
  with_total (fun total =>
    crpscl <- column_mean total "crpscl" ;;
    crps <- column_mean total "crps" ;;
    pyround (pylit 1 [-] (Ok crps [//] Ok crpscl))).
(** ecnt_statistics.py 180-205. *)
Definition calculate_ecnt_crpss_emp : res pyval :=
  with_total (fun total =>
    crps_emp <- column_mean total "crps_emp" ;;
    crpscl_emp <- column_mean total "crpscl_emp" ;;
    pyround (pylit 1 [-] (Ok crps_emp [//] Ok crpscl_emp))).

(** [math.sqrt]: [None] is a TypeError, a negative number a ValueError. *)
Definition math_sqrt (v : res pyval) : res (option R) :=
  x <- v ;;
  match x with
  | None => Err TypeError
  | Some q => if Qlt_bool q 0 then Err ValueError else Ok (Some (sqrt (Q2R q)))
  end.
(** Common body of ecnt_statistics.py 281-305, 308-332, 353-376, 379-403, 406-428. *)
Definition root_stat (name : string) : res pyval :=
  catch std_exns (rround (math_sqrt (weighted_average name))) None.
Definition calculate_ecnt_rmse := root_stat "mse".
Definition calculate_ecnt_spread := root_stat "variance".
Definition calculate_ecnt_rmse_oerr := root_stat "mse_oerr".
Definition calculate_ecnt_spread_oerr := root_stat "variance_oerr".
Definition calculate_ecnt_spread_plus_oerr := root_stat "variance_plus_oerr".

(** ecnt_statistics.py 430-451, 453-474. *)
Definition calculate_ecnt_n_ge_obs := catch std_exns (pyround (colsum "n_ge_obs")) None.
Definition calculate_ecnt_n_lt_obs := catch std_exns (pyround (colsum "n_lt_obs")) None.
(** ecnt_statistics.py 476-498, 500-522. *)
Definition calculate_ecnt_me_ge_obs : res pyval :=
  catch std_exns (n <- colsum "n_ge_obs" ;; pyround (colsum "me_ge_obs" [//] Ok n)) None.
Definition calculate_ecnt_me_lt_obs : res pyval :=
  catch std_exns (n <- colsum "n_lt_obs" ;; pyround (colsum "me_lt_obs" [//] Ok n)) None.
(** [abs(v)]: [None] is a TypeError. *)
Definition pyabs (v : res pyval) : res pyval :=
  x <- v ;; match x with Some q => Ok (Some (Qabs q)) | None => Err TypeError end.
(** ecnt_statistics.py 524-546: rounded values are Python floats. *)
Definition calculate_ecnt_bias_ratio : res pyval :=
  catch std_exns
    (ge <- calculate_ecnt_me_ge_obs ;;
     lt <- calculate_ecnt_me_lt_obs ;;
     pyround (Ok ge [/] pyabs (Ok lt))) None.

(** nbrcnt_statistics.py 180-193, rps_statistics.py 100-114, ecnt_statistics.py 549-562,
    grad_statistics.py 203-216: no protection. *)
Definition line_total : res pyval := pyround (colsum "total").

(** grad_statistics.py 21-119. *)
Definition calculate_fgbar := mean_stat "fgbar".
Definition calculate_ogbar := mean_stat "ogbar".
Definition calculate_mgbar := mean_stat "mgbar".
Definition calculate_egbar := mean_stat "egbar".
(** Common body of grad_statistics.py 122-146, 149-173, 176-200. *)
Definition percent_ratio (num den : string) : res pyval :=
  with_total (fun total =>
    a <- column_mean total num ;;
    b <- column_mean total den ;;
    pyround (pylit 100 [*] Ok a [//] Ok b)).
Definition calculate_s1 := percent_ratio "egbar" "mgbar".
Definition calculate_s1_og := percent_ratio "egbar" "ogbar".
Definition calculate_fgog_ratio := percent_ratio "fgbar" "ogbar".
End Stats.

(** agg_stat.py 773-807: preparation, then the statistic with [aggregation=True]. *)
Definition aggregated_ecnt (statistic : string) (stat : tdata -> list string -> bool -> res pyval)
  (data : tdata) (columns : list string) : res pyval :=
  t <- prepare_ecnt statistic (data, columns) ;; stat (fst t) (snd t) true.
Definition aggregated_rps (stat : tdata -> list string -> bool -> res pyval)
  (data : tdata) (columns : list string) : res pyval :=
  t <- prepare_rps (data, columns) ;; stat (fst t) (snd t) true.
Definition aggregated_nbr_cnt (stat : tdata -> list string -> bool -> res pyval)
  (data : tdata) (columns : list string) : res pyval :=
  t <- prepare_nbr_cnt (data, columns) ;; stat (fst t) (snd t) true.
