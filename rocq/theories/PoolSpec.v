(** Words for the statements about aggregated statistics by name. *)
From Coq Require Import Reals Qreals Permutation Qabs Qminmax.
From Verif Require Import PyBase ColumnModel BaseSpec RealSpec AggSpec CtcSpec LogSpec Sl1l2Spec EnsSpec EventSpec BootModel DriveModel DriveSpec.
From Coq Require Import List.
Open Scope string_scope.
Open Scope Q_scope.

(** An output row of a run over [items]: rows of the table, each with something that is known about it.  The row has the
    values of its point and counts the rows of the point; [Result] is the claim about its result, given the name of the
    statistic in small letters and the items of the point.  Without rows there is no result. *)
Definition OutputRow {A : Type} (columns : list string) (items : list (A * list cell)) (rq : request)
  (fields : list (string * list string)) (Result : string -> list (A * list cell) -> results -> Prop)
  (p : list string) (o : out_row) : Prop :=
  point_of o = combine (map fst fields) p /\
  (fcst_vars rq = [] /\ fcst_var_of o = None \/ exists v rest, fcst_vars rq = v :: rest /\ fcst_var_of o = Some v) /\
  exists before stat st chosen, p = (before ++ [stat])%list /\ InSmallLetters stat st /\
    Selection (fun x => OfPoint columns fields (fcst_vars rq) p (snd x)) items chosen /\
    nstats o = length chosen /\
    ((chosen = [] /\ stat_of o = NoResult) \/ (chosen <> [] /\ Result st chosen (stat_of o))).
(** The same for rows about which nothing else is known. *)
Definition plain_items (data : tdata) : list (unit * list cell) := map (fun r => (tt, r)) data.

(** What each statistic of partial sums measures. *)
Definition pair_measures : list (string * (list pair -> option Q -> Prop)) :=
  [("fbar", FbarOf); ("obar", ObarOf); ("fobar", FobarOf); ("ffbar", FfbarOf); ("oobar", OobarOf); ("mae", MaeOf);
   ("mbias", MbiasOf); ("me", MeOf); ("me2", Me2Of); ("mse", MseOf); ("rmse", RmseOf); ("fstdev", FstdevOf);
   ("ostdev", OstdevOf); ("pr_corr", CorrOf); ("bcmse", BcmseOf); ("bcrmse", BcrmseOf); ("msess", MsessOf)].
(** What each gradient statistic is, for pairs of gradients. *)
Definition gradient_measures : list (string * (list (Q * Q) -> option Q)) :=
  let f l := mean_of (fun p : Q * Q => Qabs (fst p)) l in
  let o l := mean_of (fun p : Q * Q => Qabs (snd p)) l in
  let m l := mean_of (fun p : Q * Q => Qmax (Qabs (fst p)) (Qabs (snd p))) l in
  let e l := mean_of (fun p : Q * Q => Qabs (fst p - snd p)) l in
  [("fgbar", fun l => Some (f l)); ("ogbar", fun l => Some (o l)); ("mgbar", fun l => Some (m l)); ("egbar", fun l => Some (e l));
   ("s1", fun l => oratio (Some (100 * e l)) (Some (m l))); ("s1_og", fun l => oratio (Some (100 * e l)) (Some (o l)));
   ("fgog_ratio", fun l => oratio (Some (100 * f l)) (Some (o l)))].
(** The ensemble scores that are means weighted by the totals, and the fields they are means of. *)
Definition ensemble_means : list (string * string) :=
  [("ecnt_crps", "crps"); ("ecnt_crpscl", "crpscl"); ("ecnt_crps_emp", "crps_emp"); ("ecnt_crps_emp_fair", "crps_emp_fair");
   ("ecnt_spread_md", "spread_md"); ("ecnt_crpscl_emp", "crpscl_emp"); ("ecnt_ign", "ign"); ("ecnt_me", "me"); ("ecnt_mae", "mae");
   ("ecnt_mae_oerr", "mae_oerr"); ("ecnt_me_oerr", "me_oerr")].
(** Those that are roots of means of squares. *)
Definition ensemble_roots : list (string * string) :=
  [("ecnt_rmse", "rmse"); ("ecnt_spread", "spread"); ("ecnt_rmse_oerr", "rmse_oerr"); ("ecnt_spread_oerr", "spread_oerr")].
(** The contingency scores, also of neighbourhoods. *)
Definition table_scores : list (string * (option Q -> option Q -> option Q -> option Q -> option Q -> option Q)) :=
  [("acc", tb_acc); ("fbias", tb_fbias); ("fmean", tb_fmean); ("pody", tb_pody); ("pofd", tb_pofd); ("podn", tb_podn);
   ("far", tb_far); ("csi", tb_csi); ("gss", tb_gss); ("hss", tb_hss); ("orss", tb_orss);
   ("nbr_acc", tb_acc); ("nbr_fbias", tb_fbias); ("nbr_fmean", tb_fmean); ("nbr_pody", tb_pody); ("nbr_pofd", tb_pofd);
   ("nbr_podn", tb_podn); ("nbr_far", tb_far); ("nbr_csi", tb_csi); ("nbr_gss", tb_gss); ("nbr_hss", tb_hss)].
(** Scores made from the hit rate and the false alarm rate as published, with 7 decimals: their difference, and the ratio of
    their odds. *)
Definition RateDifference (h fa m c : Q) (r : option Q) : Prop :=
  exists p f, Published (oratio (Some h) (Some (h + m))) p /\ Published (oratio (Some fa) (Some (fa + c))) f /\ Published (osub p f) r.
Definition RateOdds (h fa m c : Q) (r : option Q) : Prop :=
  exists p f, Published (oratio (Some h) (Some (h + m))) p /\ Published (oratio (Some fa) (Some (fa + c))) f /\
    Published (oratio (omul p (osub (Some 1) f)) (omul f (osub (Some 1) p))) r.
(** Scores made from the hit rate [H] as published; [D] is where they are defined. *)
Definition FromHitRate (h m : Q) (D : Q -> Prop) (v : Q -> R) (r : option Q) : Prop :=
  0 < h + m -> forall H, Nearest 7 (h / (h + m)) H -> GivenBy (D H) (v H) r.
(** What the remaining statistics of a contingency table are, of hits, false alarms, misses, correct negatives and total. *)
Definition table_measures : list (string * (Q -> Q -> Q -> Q -> Q -> option Q -> Prop)) :=
  [("ctc_total", fun h fa m c t r => Published (Some t) r); ("cts_total", fun h fa m c t r => Published (Some t) r);
   ("nbr_ctc_total", fun h fa m c t r => Published (Some t) r);
   ("ctc_fy_oy", fun h fa m c t r => Published (Some h) r); ("ctc_fy_on", fun h fa m c t r => Published (Some fa) r);
   ("ctc_fn_oy", fun h fa m c t r => Published (Some m) r); ("ctc_fn_on", fun h fa m c t r => Published (Some c) r);
   ("ctc_oy", fun h fa m c t r => Published (Some (h + m)) r); ("ctc_on", fun h fa m c t r => Published (Some (fa + c)) r);
   ("ctc_fy", fun h fa m c t r => Published (Some (fa + h)) r); ("ctc_fn", fun h fa m c t r => Published (Some (c + m)) r);
   ("hk", fun h fa m c t r => RateDifference h fa m c r); ("nbr_hk", fun h fa m c t r => RateDifference h fa m c r);
   ("odds", fun h fa m c t r => RateOdds h fa m c r); ("nbr_odds", fun h fa m c t r => RateOdds h fa m c r);
   ("odds1", fun h fa m c t r => r = None \/ RateOdds h fa m c r);
   ("lodds", fun h fa m c t r => GivenBy (0 < h /\ 0 < fa /\ 0 < m /\ 0 < c) (log_odds h fa m c) r);
   ("sedi", fun h fa m c t r => FromHitRate h m (fun H => 0 < fa /\ 0 < c /\ 0 < H /\ H < 1)
              (fun H => sym_extremal_index (Q2R (fa / (fa + c))) (Q2R H)) r);
   ("edi", fun h fa m c t r => FromHitRate h m (fun H => 0 < fa /\ 0 < H /\ (0 < c \/ H < 1))
             (fun H => extremal_index (Q2R (fa / (fa + c))) (Q2R H)) r);
   ("seds", fun h fa m c t r => GivenBy (0 < h /\ h < t) (sym_dependency (Q2R (h / t)) (Q2R ((h + fa) / t)) (Q2R ((h + m) / t))) r);
   ("eds", fun h fa m c t r => GivenBy (0 < h /\ h < t) (dependency (Q2R (h / t)) (Q2R ((h + m) / t))) r);
   ("bagss", fun h fa m c t r => 0 < h -> 0 < m -> 0 < fa -> let events := Q2R (h + m) in exists misses v,
              AdjustedMisses events (Q2R m) (Q2R fa) misses /\ r = Some v /\
              NearestR 7 (unbiased_gss (events - misses) misses (events * events / Q2R t)) v)].
(** The names of all statistics. *)
Definition statistic_names : list string :=
  ["baser"; "acc"; "fbias"; "fmean"; "pody"; "pofd"; "ctc_roc"; "podn"; "far"; "csi"; "gss"; "hk"; "hss"; "odds"; "lodds"; "bagss";
   "eclv"; "economic_value"; "ctc_total"; "cts_total"; "ctc_fn_on"; "ctc_fn_oy"; "ctc_fy_on"; "ctc_fy_oy"; "ctc_oy"; "ctc_on";
   "ctc_fy"; "ctc_fn"; "odds1"; "orss"; "sedi"; "seds"; "edi"; "eds";
   "fgbar"; "ogbar"; "mgbar"; "egbar"; "s1"; "s1_og"; "fgog_ratio"; "grad_total";
   "fbar"; "obar"; "fstdev"; "ostdev"; "fobar"; "ffbar"; "oobar"; "mae"; "mbias"; "pr_corr"; "fe"; "me"; "me2"; "mse"; "msess";
   "rmse"; "si"; "estdev"; "bcmse"; "bcrmse"; "stddev"; "sl1l2_total"; "sal1l2_total";
   "anom_corr"; "anom_corr_raw"; "rmsfa"; "rmsoa";
   "ssvar_fbar"; "ssvar_fstdev"; "ssvar_obar"; "ssvar_ostdev"; "ssvar_pr_corr"; "ssvar_me"; "ssvar_estdev"; "ssvar_mse";
   "ssvar_bcmse"; "ssvar_bcrmse"; "ssvar_rmse"; "ssvar_anom_corr"; "ssvar_me2"; "ssvar_msess"; "ssvar_spread"; "ssvar_total";
   "val1l2_anom_corr"; "val1l2_total";
   "vcnt_fbar"; "vcnt_obar"; "vcnt_fs_rms"; "vcnt_os_rms"; "vcnt_msve"; "vcnt_rmsve"; "vcnt_fstdev"; "vcnt_ostdev"; "vcnt_fdir";
   "vcnt_odir"; "vcnt_fbar_speed"; "vcnt_obar_speed"; "vcnt_vdiff_speed"; "vcnt_vdiff_dir"; "vcnt_speed_err";
   "vcnt_speed_abserr"; "vcnt_dir_err"; "vcnt_dir_abser"; "vcnt_anom_corr"; "vcnt_anom_corr_uncntr";
   "vl1l2_bias"; "vl1l2_fvar"; "vl1l2_ovar"; "vl1l2_fspd"; "vl1l2_ospd"; "vl1l2_speed_err"; "vl1l2_msve"; "vl1l2_rmsve"; "vl1l2_total";
   "ecnt_crps"; "ecnt_crpscl"; "ecnt_crpss"; "ecnt_crps_emp"; "ecnt_crps_emp_fair"; "ecnt_spread_md"; "ecnt_crpscl_emp";
   "ecnt_crpss_emp"; "ecnt_ign"; "ecnt_me"; "ecnt_mae"; "ecnt_mae_oerr"; "ecnt_rmse"; "ecnt_spread"; "ecnt_me_oerr";
   "ecnt_rmse_oerr"; "ecnt_spread_oerr"; "ecnt_spread_plus_oerr"; "ecnt_n_ge_obs"; "ecnt_n_lt_obs"; "ecnt_me_ge_obs";
   "ecnt_me_lt_obs"; "ecnt_bias_ratio"; "ecnt_total";
   "nbr_fbs"; "nbr_fss"; "nbr_afss"; "nbr_ufss"; "nbr_f_rate"; "nbr_o_rate"; "nbr_cnt_total";
   "nbr_baser"; "nbr_acc"; "nbr_fbias"; "nbr_fmean"; "nbr_pody"; "nbr_pofd"; "nbr_podn"; "nbr_far"; "nbr_csi"; "nbr_gss"; "nbr_hk";
   "nbr_hss"; "nbr_odds"; "nbr_ctc_total";
   "pstd_brier"; "pstd_bss_smpl"; "pstd_baser"; "pstd_reliability"; "pstd_resolution"; "pstd_uncertainty"; "pstd_calibration";
   "pstd_ni"; "pstd_roc_auc"; "pct_total";
   "rps"; "rps_comp"; "rpss"; "rps_total"; "mcts_hss_ec"].
(** The statistics that do not depend on the order of the rows. *)
Definition order_free : list string :=
  ["acc"; "fbias"; "fmean"; "pody"; "pofd"; "podn"; "far"; "csi"; "gss"; "hk"; "hss"; "odds"; "orss";
   "nbr_acc"; "nbr_fbias"; "nbr_fmean"; "nbr_pody"; "nbr_pofd"; "nbr_podn"; "nbr_far"; "nbr_csi"; "nbr_gss"; "nbr_hk"; "nbr_hss"; "nbr_odds"].

(** For the examples: lines of two models with a valid time and a lead, then the total and the means of groups of pairs. *)
Definition pool_columns : list string := ("fcst_valid_beg" :: "fcst_lead" :: "model" :: line_columns sl1l2_fields)%list.
Definition pool_row (time model : string) (b : list pair) : list cell :=
  (CStr time :: CNum 12 :: CStr model :: line_of sl1l2_fields b)%list.
Definition pool_items : list (list pair * list cell) :=
  map (fun x => (snd x, pool_row (fst (fst x)) (snd (fst x)) (snd x)))
    [("d2", "A", [(1, 2); (3, 5); (2, 2)]); ("d1", "A", [(7, 4)]); ("d1", "B", [(1, 1); (2, 1)])].
Definition pool_request (stats : list string) : request := Request [("model", ["A"; "B"])] "fcst_lead" ["12"] stats [] [].
Definition pool_fields (stats : list string) : list (string * list string) :=
  [("model", ["A"; "B"]); ("fcst_lead", ["12"]); ("stat_name", stats)].
Definition no_request : request := Request [] "fcst_lead" [] [] [] [].
(** Contingency lines with a threshold of the expected correctness. *)
Definition table_columns : list string := ("fcst_valid_beg" :: "fcst_lead" :: "model" :: "ec_value" :: ctc_columns)%list.
Definition table_row (time model : string) (ec h fa m c : Q) : list cell :=
  (CStr time :: CNum 12 :: CStr model :: CNum ec :: ctc_row h fa m c)%list.
(** Gradient lines and ensemble lines with the same first columns. *)
Definition gradient_columns : list string := ("fcst_valid_beg" :: "fcst_lead" :: "model" :: line_columns grad_fields)%list.
Definition gradient_items : list (list (Q * Q) * list cell) :=
  map (fun x => (snd x, (CStr (fst x) :: CNum 12 :: CStr "A" :: line_of grad_fields (snd x))%list))
    [("d2", [(1, -(2)); (3, 5)]); ("d1", [(2, 2)])].
Definition ensemble_columns : list string := ("fcst_valid_beg" :: "fcst_lead" :: "model" :: ecnt_fields)%list.
Definition ensemble_items : list ((string -> option Q) * list cell) :=
  [(fun _ => Some 3, CStr "d2" :: CNum 12 :: CStr "A" :: map (fun _ => CNum 3) ecnt_fields);
   (fun _ => Some 5, CStr "d1" :: CNum 12 :: CStr "A" :: map (fun _ => CNum 5) ecnt_fields)]%list.
