(** The aggregated statistics by name: metcalcpy/agg_stat.py, [_calc_stats], the preparation of the line types and
    [_get_bootstrapped_stats], and metcalcpy/util/nbrctc_statistics.py.  Together they are the calls that the driver of
    DriveModel.v makes. *)
From Coq Require Import Reals.
From Verif Require Import PyBase ColumnModel CtcModel LogModel Sl1l2Model AggModel EnsModel AnomModel WindModel.
From Verif Require EventModel MctsModel.
From Verif Require Import BootModel DriveModel PairModel.
From Coq Require Import List.
Open Scope string_scope.
Open Scope Q_scope.

(** nbrctc_statistics.py 24-242: each function calls the one of ctc_statistics.py. *)
Definition calculate_nbr_baser := calculate_baser.
Definition calculate_nbr_acc := calculate_acc.
Definition calculate_nbr_fbias := calculate_fbias.
Definition calculate_nbr_fmean := calculate_fmean.
Definition calculate_nbr_pody := calculate_pody.
Definition calculate_nbr_pofd := calculate_pofd.
Definition calculate_nbr_podn := calculate_podn.
Definition calculate_nbr_far := calculate_far.
Definition calculate_nbr_csi := calculate_csi.
Definition calculate_nbr_gss := calculate_gss.
Definition calculate_nbr_hk := calculate_hk.
Definition calculate_nbr_hss := calculate_hss.
Definition calculate_nbr_odds := calculate_odds.
(** nbrctc_statistics.py 245-259: unprotected. *)
Definition calculate_nbr_ctc_total (data : tdata) (columns : list string) : res pyval :=
  pyround (sum_column_data_by_name data columns "total" true).

(** A statistic: the rows, the names of the columns, and whether the rows are aggregated. *)
Definition statistic_function : Type := tdata -> list string -> bool -> res pyval.
(** agg_stat.py 253-270: a function with two parameters is called without the third argument. *)
Definition two (f : tdata -> list string -> res pyval) : statistic_function := fun d c _ => f d c.

Section Functions.
(** [scipy.special.lambertw(x).real]. *)
Variable lambertw : R -> R.

(** agg_stat.py 43-56: the functions [calculate_…] that are imported, by the names of the statistics. *)
Definition functions : list (string * statistic_function) := [
  ("baser", two calculate_baser); ("acc", two calculate_acc); ("fbias", two calculate_fbias);
  ("fmean", two calculate_fmean); ("pody", two calculate_pody); ("pofd", two calculate_pofd);
  ("podn", two calculate_podn); ("far", two calculate_far); ("csi", two calculate_csi);
  ("gss", two calculate_gss); ("hk", two calculate_hk); ("hss", two calculate_hss);
  ("odds", two calculate_odds); ("lodds", two calculate_lodds);
  ("bagss", two (fun d c => calculate_bagss d c lambertw));
  ("ctc_total", two calculate_ctc_total); ("cts_total", two calculate_cts_total);
  ("ctc_fn_on", two calculate_ctc_fn_on); ("ctc_fn_oy", two calculate_ctc_fn_oy);
  ("ctc_fy_on", two calculate_ctc_fy_on); ("ctc_fy_oy", two calculate_ctc_fy_oy);
  ("ctc_oy", two calculate_ctc_oy); ("ctc_on", two calculate_ctc_on);
  ("ctc_fy", two calculate_ctc_fy); ("ctc_fn", two calculate_ctc_fn);
  ("odds1", two calculate_odds1); ("orss", two calculate_orss);
  ("sedi", two calculate_sedi); ("seds", two calculate_seds); ("edi", two calculate_edi); ("eds", two calculate_eds);
  ("fgbar", calculate_fgbar); ("ogbar", calculate_ogbar); ("mgbar", calculate_mgbar); ("egbar", calculate_egbar);
  ("s1", calculate_s1); ("s1_og", calculate_s1_og); ("fgog_ratio", calculate_fgog_ratio); ("grad_total", two line_total);
  ("fbar", calculate_fbar); ("obar", calculate_obar); ("fstdev", calculate_fstdev); ("ostdev", calculate_ostdev);
  ("fobar", calculate_fobar); ("ffbar", calculate_ffbar); ("oobar", calculate_oobar); ("mae", calculate_mae);
  ("mbias", calculate_mbias); ("pr_corr", calculate_pr_corr); ("fe", calculate_fe); ("me", calculate_me);
  ("me2", calculate_me2); ("mse", calculate_mse); ("msess", calculate_msess); ("rmse", calculate_rmse);
  ("si", calculate_si); ("estdev", calculate_estdev); ("bcmse", calculate_bcmse); ("bcrmse", calculate_bcrmse);
  ("sl1l2_total", two calculate_sl1l2_total); ("sal1l2_total", two calculate_sl1l2_total);
  ("anom_corr", calculate_anom_corr); ("anom_corr_raw", calculate_anom_corr_raw);
  ("rmsfa", calculate_rmsfa); ("rmsoa", calculate_rmsoa);
  ("ssvar_fbar", calculate_ssvar_fbar); ("ssvar_fstdev", calculate_ssvar_fstdev); ("ssvar_obar", calculate_ssvar_obar);
  ("ssvar_ostdev", calculate_ssvar_ostdev); ("ssvar_pr_corr", calculate_ssvar_pr_corr); ("ssvar_me", calculate_ssvar_me);
  ("ssvar_estdev", calculate_ssvar_estdev); ("ssvar_mse", calculate_ssvar_mse); ("ssvar_bcmse", calculate_ssvar_bcmse);
  ("ssvar_bcrmse", calculate_ssvar_bcrmse); ("ssvar_rmse", calculate_ssvar_rmse);
  ("ssvar_anom_corr", calculate_ssvar_anom_corr); ("ssvar_me2", calculate_ssvar_me2);
  ("ssvar_msess", calculate_ssvar_msess); ("ssvar_spread", calculate_ssvar_spread); ("ssvar_total", two calculate_ssvar_total);
  ("val1l2_anom_corr", calculate_val1l2_anom_corr); ("val1l2_total", two calculate_val1l2_total);
  ("vcnt_fbar", calculate_vcnt_fbar); ("vcnt_obar", calculate_vcnt_obar); ("vcnt_fs_rms", calculate_vcnt_fs_rms);
  ("vcnt_os_rms", calculate_vcnt_os_rms); ("vcnt_msve", calculate_vcnt_msve); ("vcnt_rmsve", calculate_vcnt_rmsve);
  ("vcnt_fstdev", calculate_vcnt_fstdev); ("vcnt_ostdev", calculate_vcnt_ostdev); ("vcnt_fdir", calculate_vcnt_fdir);
  ("vcnt_odir", calculate_vcnt_odir); ("vcnt_fbar_speed", calculate_vcnt_fbar_speed);
  ("vcnt_obar_speed", calculate_vcnt_obar_speed); ("vcnt_vdiff_speed", calculate_vcnt_vdiff_speed);
  ("vcnt_vdiff_dir", calculate_vcnt_vdiff_dir); ("vcnt_speed_err", calculate_vcnt_speed_err);
  ("vcnt_speed_abserr", calculate_vcnt_speed_abserr); ("vcnt_dir_err", calculate_vcnt_dir_err);
  ("vcnt_dir_abser", calculate_vcnt_dir_abser);
  ("vl1l2_bias", calculate_vl1l2_bias); ("vl1l2_fvar", calculate_vl1l2_fvar); ("vl1l2_ovar", calculate_vl1l2_ovar);
  ("vl1l2_fspd", calculate_vl1l2_fspd); ("vl1l2_ospd", calculate_vl1l2_ospd);
  ("vl1l2_speed_err", calculate_vl1l2_speed_err); ("vl1l2_msve", calculate_vl1l2_msve);
  ("vl1l2_rmsve", calculate_vl1l2_rmsve); ("vl1l2_total", two calculate_vl1l2_total);
  ("ecnt_crps", calculate_ecnt_crps); ("ecnt_crpscl", calculate_ecnt_crpscl); ("ecnt_crpss", calculate_ecnt_crpss);
  ("ecnt_crps_emp", calculate_ecnt_crps_emp); ("ecnt_crps_emp_fair", calculate_ecnt_crps_emp_fair);
  ("ecnt_spread_md", calculate_ecnt_spread_md); ("ecnt_crpscl_emp", calculate_ecnt_crpscl_emp);
  ("ecnt_crpss_emp", calculate_ecnt_crpss_emp); ("ecnt_ign", calculate_ecnt_ign); ("ecnt_me", calculate_ecnt_me);
  ("ecnt_mae", calculate_ecnt_mae); ("ecnt_mae_oerr", calculate_ecnt_mae_oerr); ("ecnt_rmse", calculate_ecnt_rmse);
  ("ecnt_spread", calculate_ecnt_spread); ("ecnt_me_oerr", calculate_ecnt_me_oerr);
  ("ecnt_rmse_oerr", calculate_ecnt_rmse_oerr); ("ecnt_spread_oerr", calculate_ecnt_spread_oerr);
  ("ecnt_spread_plus_oerr", calculate_ecnt_spread_plus_oerr);
  ("ecnt_n_ge_obs", two calculate_ecnt_n_ge_obs); ("ecnt_n_lt_obs", two calculate_ecnt_n_lt_obs);
  ("ecnt_me_ge_obs", two calculate_ecnt_me_ge_obs); ("ecnt_me_lt_obs", two calculate_ecnt_me_lt_obs);
  ("ecnt_bias_ratio", two calculate_ecnt_bias_ratio); ("ecnt_total", two line_total);
  ("nbr_fbs", calculate_nbr_fbs); ("nbr_fss", calculate_nbr_fss); ("nbr_afss", calculate_nbr_afss);
  ("nbr_ufss", calculate_nbr_ufss); ("nbr_f_rate", calculate_nbr_f_rate); ("nbr_o_rate", calculate_nbr_o_rate);
  ("nbr_cnt_total", two line_total);
  ("nbr_baser", two calculate_nbr_baser); ("nbr_acc", two calculate_nbr_acc); ("nbr_fbias", two calculate_nbr_fbias);
  ("nbr_fmean", two calculate_nbr_fmean); ("nbr_pody", two calculate_nbr_pody); ("nbr_pofd", two calculate_nbr_pofd);
  ("nbr_podn", two calculate_nbr_podn); ("nbr_far", two calculate_nbr_far); ("nbr_csi", two calculate_nbr_csi);
  ("nbr_gss", two calculate_nbr_gss); ("nbr_hk", two calculate_nbr_hk); ("nbr_hss", two calculate_nbr_hss);
  ("nbr_odds", two calculate_nbr_odds); ("nbr_ctc_total", two calculate_nbr_ctc_total);
  ("rps", calculate_rps); ("rps_comp", calculate_rps_comp); ("rpss", calculate_rpss); ("rps_total", two line_total);
  ("mcts_hss_ec", two MctsModel.calculate_mcts_hss_ec) ].

(** Functions that are imported but not followed here: those of probability forecasts (line type 'pct'), the economic
    value (a dictionary), two correlations that are not rounded (real numbers), and helpers with other parameters. *)
Definition not_followed : list string := [
  "ctc_roc"; "eclv"; "economic_value"; "stddev"; "vcnt_anom_corr"; "vcnt_anom_corr_uncntr";
  "pstd_brier"; "pstd_bss_smpl"; "pstd_baser"; "pstd_reliability"; "pstd_resolution"; "pstd_uncertainty";
  "pstd_calibration"; "pstd_ni"; "pstd_roc_auc"; "pct_total" ].

(** [globals()[func_name]], agg_stat.py 249-253. *)
Definition function_named (statistic : string) : res statistic_function :=
  match assoc statistic functions with
  | Some f => Ok f
  | None => if EventModel.mem statistic not_followed then Err NotModelled else Err KeyError
  end.
End Functions.

(** [data['ec_value'] == data['ec_value'][0]]: a missing value equals nothing. *)
Definition same_cell (a b : cell) : bool :=
  match a, b with
  | CNum p, CNum q => Qeq_bool p q
  | CStr s, CStr t => String.eqb s t
  | _, _ => false
  end.
(** agg_stat.py 565-598: [_prepare_mctc_data], [_prepare_ctc_data] and [_prepare_cts_data].  The rows are numbered anew
    (line 794), so [0] is the first one. *)
Definition check_ec (rows : tdata) (columns : list string) : res tdata :=
  match index_of "ec_value" columns with
  | None => Ok rows
  | Some i =>
      cells <- column_at rows i ;;
      match cells with
      | [] => Err KeyError
      | first :: _ => if forallb (same_cell first) cells then Ok rows else Err ValueError
      end
  end.

(** agg_stat.py 796-799 and 406-606: the preparation of a line type and the names of the columns afterwards.  Line type
    'None' is also the model of a line type that is not given.  Simplification: 'pct' is not followed.  An unknown line
    type is an AttributeError of [getattr]. *)
Definition prepared (line_type statistic : string) (rows : tdata) (columns : list string) : res (tdata * list string) :=
  let same := d <- prepare statistic rows columns ;; Ok (d, columns) in
  let checked := d <- check_ec rows columns ;; Ok (d, columns) in
  if EventModel.mem line_type ["sl1l2"; "sal1l2"; "grad"; "vl1l2"; "val1l2"; "vcnt"] then same
  else if EventModel.mem line_type ["ctc"; "cts"; "mctc"] then checked
  else if EventModel.mem line_type ["nbr_ctc"; "None"] then Ok (rows, columns)
  else if String.eqb line_type "ecnt" then prepare_ecnt statistic (rows, columns)
  else if String.eqb line_type "rps" then prepare_rps (rows, columns)
  else if String.eqb line_type "ssvar" then prepare_ssvar statistic rows columns
  else if String.eqb line_type "nbr_cnt" then prepare_nbr_cnt (rows, columns)
  else if String.eqb line_type "pct" then Err NotModelled
  else Err AttributeError.
(** [self.column_names] after the preparation: the new names do not depend on the rows. *)
Definition prepared_columns (line_type statistic : string) (columns : list string) : res (list string) :=
  if EventModel.mem line_type ["ctc"; "cts"; "mctc"] then Ok columns
  else t <- prepared line_type statistic [] columns ;; Ok (snd t).

Section Calls.
Variable lambertw : R -> R.
Variable gen : Type.
Variable randint : gen -> nat -> nat * gen.
Variable seed_gen : Z -> gen.
(** The state of the generator when the bootstrap of a point starts, and the parameters. *)
Variable state : string -> tdata -> gen.
Variables (alpha : Q) (num_iterations num_threads cpu_count : Z) (seeds : list Z) (method : ci_method) (is_cbb : bool).
Variables (line_type : string) (columns : list string).
(** The equivalence test of utils.py 172-181. *)
Variable equivalence : list Q -> list Q -> res unit.

(** agg_stat.py 255-263: the statistic of a table. *)
Definition calc_values (aggregated : bool) (statistic : string) (rows : tdata) : res pyval :=
  f <- function_named lambertw statistic ;;
  names <- prepared_columns line_type statistic columns ;;
  f rows names aggregated.
(** agg_stat.py 237-281, [_calc_stats]. *)
Definition calc_stats (statistic : string) (a : array row) : res (list pyval) :=
  match a with
  | Data rows => v <- calc_values true statistic rows ;; Ok [v]
  | Samples l => _ <- function_named lambertw statistic ;; map_res (calc_values true statistic) l
  end.
(** agg_stat.py 816-834: the bootstrap of the rows of a point. *)
Definition bootstrapped (statistic : string) (rows : tdata) : res results :=
  let block_length := if is_cbb then Z.sqrt (Z.of_nat (length rows)) else 1%Z in
  r <- bootstrap_and_value gen randint seed_gen rows (calc_stats statistic) alpha (state statistic rows)
         num_iterations num_threads cpu_count seeds method block_length ;;
  Ok (fst r).
(** The calls of the driver.  The statistic of one row for 'ETB' (agg_stat.py 713-719) is called with two arguments, so the
    row counts as not aggregated. *)
Definition agg_engine : engine := Engine
  (fun statistic rows => t <- prepared line_type statistic rows columns ;; Ok (fst t))
  (calc_values true)
  bootstrapped
  (fun statistic r => calc_values false statistic [r])
  (fun statistic operation v1 v2 =>
     derived_bootstrap gen randint seed_gen
       (fun name => match assoc name (functions lambertw) with
                    | Some f => Some (fun rows => names <- prepared_columns line_type statistic columns ;; f rows names true)
                    | None => if EventModel.mem name not_followed then Some (fun _ => Err NotModelled) else None
                    end)
       equivalence columns alpha (state statistic v1) num_iterations num_threads cpu_count seeds method is_cbb operation v1 v2)
  equivalence.
End Calls.
