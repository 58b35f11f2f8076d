(** Preparation of partial-sum rows before aggregation:
    metcalcpy/agg_stat.py 107-235 (field table) and 406-606 (multiplication by 'total'). *)
From Verif Require Import PyBase ColumnModel.
Open Scope string_scope.

(** agg_stat.py 107-235 [STATISTIC_TO_FIELDS], as written (typos included). *)
Definition STATISTIC_TO_FIELDS : list (string * list string) := [
  ("baser", ["fy_oy"; "fn_oy"]);
  ("acc", ["fy_oy"; "fn_on"]);
  ("fbias", ["fy_oy"; "fn_on"; "fy_oy"; "fy_on"]);
  ("fmean", ["fy_oy"; "fy_on"]);
  ("pody", ["fy_oy"; "fn_oy"]);
  ("pofd", ["fy_on"; "fn_on"]);
  ("podn", ["fn_on"; "fy_on"]);
  ("far", ["fy_on"; "fy_oy"]);
  ("csi", ["fy_oy"; "fy_on"; "fn_oy"]);
  ("gss", ["fy_oy"; "fy_on"; "fn_oy"]);
  ("hk", ["fy_oy"; "fn_oy"; "fy_on"; "fn_on"]);
  ("hss", ["fy_oy"; "fn_oy"; "fy_on"; "fn_on"]);
  ("odds", ["fy_oy"; "fn_oy"; "fy_on"; "fn_on"]);
  ("lodds", ["fy_oy"; "fn_oy"; "fy_on"; "fn_on"]);
  ("baggs", ["fy_oy"; "fn_oy"; "fy_on"]);
  ("eclv", ["fy_oy"; "fn_oy"; "fy_on"; "fn_on"]);
  ("fbar", ["fbar"]);
  ("obar", ["obar"]);
  ("fstdev", ["fbar"; "ffbar"]);
  ("ostdev", ["obar"; "oobar"]);
  ("fobar", ["fobar"]);
  ("ffbar", ["ffbar"]);
  ("oobar", ["oobar"]);
  ("mae", ["mae"]);
  ("mbias", ["obar"; "fbar"]);
  ("corr", ["ffbar"; "fbar"; "oobar"; "obar"; "fobar"]);
  ("anom_corr", ["ffabar"; "fabar"; "ooabar"; "oabar"; "foabar"]);
  ("anom_corr_raw", ["ffabar"; "ooabar"; "foabar"]);
  ("rmsfa", ["ffabar"]);
  ("rmsoa", ["ooabar"]);
  ("me", ["fbar"; "obar"]);
  ("me2", ["fbar"; "obar"]);
  ("mse", ["ffbar"; "oobar"; "fobar"]);
  ("msess", ["ffbar"; "oobar"; "fobar"; "obar"]);
  ("rmse", ["ffbar"; "oobar"; "fobar"]);
  ("si", ["ffbar"; "oobar"; "fobar"; "obar"]);
  ("estdev", ["ffbar"; "oobar"; "fobar"; "fbar"; "obar"]);
  ("bcmse", ["ffbar"; "oobar"; "fobar"; "fbar"; "obar"]);
  ("bcrmse", ["ffbar"; "oobar"; "fobar"; "fbar"; "obar"]);
  ("pr_corr", ["ffbar"; "oobar"; "fobar"; "fbar"; "obar"]);
  ("fgbar", ["fgbar"]);
  ("ogbar", ["ogbar"]);
  ("mgbar", ["mgbar"]);
  ("egbar", ["egbar"]);
  ("s1", ["egbar"; "mgbar"]);
  ("s1_og", ["egbar"; "ogbar"]);
  ("fgog_ratio", ["fgbar"; "ogbar"]);
  ("vcnt_fbar", ["f_speed_bar"]);
  ("vcnt_obar", ["o_speed_bar"]);
  ("vcnt_fs_rms", ["uvffbar"]);
  ("vcnt_os_rms", ["uvoobar"]);
  ("vcnt_msve", ["uvffbar"; "uvfobar"; "uvoobar"]);
  ("vcnt_rmsve", ["uvffbar"; "uvfobar"; "uvoobar"]);
  ("vcnt_fstdev", ["uvffbar"; "f_speed_bar"]);
  ("vcnt_ostdev", ["uvoobar"; "o_speed_bar"]);
  ("vcnt_fdir", ["ufbar"; "vfbar"]);
  ("vcnt_odir", ["uobar"; "vobar"]);
  ("vcnt_fbar_speed", ["ufbar"; "vfbar"]);
  ("vcnt_obar_speed", ["uobar"; "vobar"]);
  ("vcnt_vdiff_speed", ["ufbar"; "uobar"; "vfbar"; "vobar"]);
  ("vcnt_vdiff_dir", ["ufbar"; "uobar"; "vfbar"; "vobar"]);
  ("vcnt_speed_err", ["ufbar"; "vfbar"; "uobar"; "vobar"]);
  ("vcnt_speed_abserr", ["ufbar"; "vfbar"; "uobar"; "vobar"]);
  ("vcnt_dir_err", ["ufbar"; "vfbar"; "uobar"; "vobar"]);
  ("vcnt_dir_abser", ["ufbar"; "vfbar"; "uobar"; "vobar"]);
  ("vcnt_anom_corr", ["uvffabar"; "uvfoabar"; "uvooabar"; "fa_speed_bar"; "oa_speed_bar"]);
  ("vcnt_anom_corr_uncntr", ["uvffabar"; "uvfoabar"; "uvooabar"]);
  ("vl1l2_bias", ["uvffbar"; "uvoobar"]);
  ("vl1l2_fvar", ["uvffbar"; "f_speed_bar"]);
  ("vl1l2_ovar", ["uvoobar"; "o_speed_bar"]);
  ("vl1l2_speed_err", ["ufbar"; "vfbar"; "uobar"; "vobar"]);
  ("vl1l2_rmsve", ["uvffbar"; "uvfobar"; "uvoobar"]);
  ("vl1l2_msve", ["uvffbar"; "uvfobar"; "uvoobar"]);
  ("val1l2_anom_corr", ["ufabar"; "vfabar"; "uoabar"; "voabar"; "uvfoabar"; "uvffabar"; "uvooabar"]);
  ("ssvar_fbar", ["fbar"]);
  ("ssvar_fstdev", ["fbar"; "ffbar"]);
  ("ssvar_obar", ["obar"]);
  ("ssvar_ostdev", ["obar"; "oobar"]);
  ("ssvar_pr_corr", ["ffbar"; "fbar"; "oobar"; "obar"; "fobar"]);
  ("ssvar_me", ["fbar"; "obar"]);
  ("ssvar_estdev", ["obar"; "fbar"; "ffbar"; "oobar"; "fobar"]);
  ("ssvar_mse", ["ffbar"; "oobar"; "fobar"]);
  ("ssvar_bcmse", ["fbar"; "obar"; "ffbar"; "oobar"; "fobar"]);
  ("ssvar_bcrmse", ["fbar"; "obar"; "ffbar"; "oobar"; "fobar"]);
  ("ssvar_rmse", ["ffbar"; "oobar"; "fobar"]);
  ("ssvar_anom_corr", ["fbar"; "obar"; "ffbar"; "oobar"; "fobar"]);
  ("ssvar_me2", ["fbar"; "obar"]);
  ("ssvar_msess", ["obar"; "oobar"; "ffbar"; "fobar"]);
  ("ssvar_spread", ["var_mean"]);
  ("ecnt_crps", ["crps"]);
  ("ecnt_crpss", ["crps"; "crpscl"]);
  ("ecnt_ign", ["ign"]);
  ("ecnt_me", ["me"]);
  ("ecnt_rmse", []);
  ("ecnt_spread", ["spread"]);
  ("ecnt_me_oerr", ["me_oerr"]);
  ("ecnt_rmse_oerr", []);
  ("ecnt_spread_oerr", ["spread_oerr"]);
  ("ecnt_spread_plus_oerr", ["spread_plus_oerr"]);
  ("ecnt_crpscl", ["crpscl"]);
  ("ecnt_crps_emp", ["crps_emp"]);
  ("ecnt_crpscl_emp", ["crpscl_emp"]);
  ("ecnt_crpss_emp", ["crpscl_emp"; "crps_emp"]);
  ("ecnt_crps_emp_fair", ["crps_emp_fair"]);
  ("ecnt_spread_md", ["spread_md"]);
  ("ecnt_mae", ["mae"]);
  ("ecnt_mae_oerr", ["mae_oerr"]);
  ("ecnt_n_ge_obs", []);
  ("ecnt_me_ge_obs", ["me_ge_obs"]);
  ("ecnt_n_lt_obs", []);
  ("ecnt_me_lt_obs", ["me_lt_obs"]);
  ("ecnt_bias_ratio", ["me_ge_obs"; "me_lt_obs"]);
  ("nbr_fbs", ["fbs"]);
  ("nbr_fss", ["fss"]);
  ("nbr_afss", ["afss"]);
  ("nbr_f_rare", ["f_rate"]);
  ("nbr_o_rare", ["o_rate"]) ].

(** Dictionary lookup. *)
Fixpoint assoc {A : Type} (key : string) (l : list (string * A)) : option A :=
  match l with
  | [] => None
  | (k, v) :: t => if String.eqb k key then Some v else assoc key t
  end.

(** Replace the cell in position [i]. *)
Fixpoint set_nth (i : nat) (c : cell) (r : row) : row :=
  match r, i with
  | [], _ => []
  | _ :: t, O => c :: t
  | x :: t, S j => x :: set_nth j c t
  end.

(** Product of two cells of data-frame columns: NaN propagates; text is a TypeError. *)
Definition cell_times (a b : cell) : res cell :=
  match a, b with
  | CStr _, _ | _, CStr _ => Err TypeError
  | CNum p, CNum q => Ok (CNum (p * q))
  | _, _ => Ok CMiss
  end.

(** One row of [df[column] = df[column].values * df[weight].values]. *)
Definition scale_row (i t : nat) (r : row) : res row :=
  c <- cell_at i r ;; n <- cell_at t r ;; p <- cell_times c n ;; Ok (set_nth i p r).

(** The same for the table; a missing column is a KeyError. *)
Definition scale_column_by (weight : string) (data : tdata) (columns : list string) (column : string)
  : res tdata :=
  match index_of column columns, index_of weight columns with
  | Some i, Some t => mapM (scale_row i t) data
  | _, _ => Err KeyError
  end.
Definition scale_column := scale_column_by "total".

(** The loop over the columns. *)
Fixpoint scale_columns (data : tdata) (columns : list string) (cols : list string) : res tdata :=
  match cols with
  | [] => Ok data
  | c :: rest => d <- scale_column data columns c ;; scale_columns d columns rest
  end.

(** agg_stat.py 406-478: [_prepare_sl1l2_data], [_prepare_sal1l2_data], [_prepare_grad_data],
    [_prepare_vl1l2_data], [_prepare_val1l2_data], [_prepare_vcnt_data] are identical. *)
Definition prepare (statistic : string) (data : tdata) (columns : list string) : res tdata :=
  match assoc statistic STATISTIC_TO_FIELDS with
  | Some cols => scale_columns data columns cols
  | None => Ok data
  end.

(** agg_stat.py 237-270 [_calc_stats] on one sample: preparation, then the statistic with
    [aggregation=True]. *)
Definition aggregated (statistic : string)
  (stat : tdata -> list string -> bool -> res pyval) (data : tdata) (columns : list string)
  : res pyval :=
  d <- prepare statistic data columns ;; stat d columns true.
