(** Anomaly partial sums: metcalcpy/util/sal1l2_statistics.py, val1l2_statistics.py, the anomaly
    correlations of vcnt_statistics.py and metcalcpy/util/ssvar_statistics.py. *)
From Coq Require Import Reals Qreals.
From Verif Require Import PyBase ColumnModel RealBase AggModel Sl1l2Model.
Open Scope string_scope.
Open Scope Q_scope.

(** [if result > 1: result = 1.0 elif result < -1: result = -1.0]
    (vcnt_statistics.py 530-533, 552-555; sal1l2_statistics.py 85-88). *)
Definition clamp_unit (v : res (option R)) : res (option R) :=
  x <- v ;;
  match x with
  | None => Err TypeError
  | Some c => if Rlt_dec 1 c then Ok (Some 1%R) else if Rlt_dec c (-1) then Ok (Some (-1)%R) else Ok (Some c)
  end.

Section Stats.
Variables (data : tdata) (columns : list string) (aggregation : bool).
Notation colsum := (colsum data columns).
Notation get_total := (get_total data columns aggregation).

(** sal1l2_statistics.py 22-57.  The early [return None] (which also leaves the warning filter
    in the state 'error') is the value [None]. *)
Definition calculate_anom_corr : res pyval :=
  catch std_exns
    (total <- get_total ;;
     let t := Ok total in let T := Ok total [*] Ok total in
     ffbar <- colsum "ffabar" [//] t ;;
     fbar <- colsum "fabar" [//] t ;;
     oobar <- colsum "ooabar" [//] t ;;
     obar <- colsum "oabar" [//] t ;;
     fobar <- colsum "foabar" [//] t ;;
     v <- (T [*] Ok ffbar [-] T [*] pysq (Ok fbar)) [*] (T [*] Ok oobar [-] T [*] pysq (Ok obar)) ;;
     match v with
     | Some q =>
         if Qle_bool q 0 then Ok None
         else
           c <- rdiv (toR (T [*] Ok fobar [-] T [*] Ok fbar [*] Ok obar)) (np_sqrt (Ok v)) ;;
           match c with
           | Some x => if Rlt_dec 1 x then Ok None else rround (Ok (Some x))
           | None => Err TypeError
           end
     | None => Err TypeError
     end) None.

(** sal1l2_statistics.py 60-94. *)
Definition calculate_anom_corr_raw : res pyval :=
  catch std_exns
    (total <- get_total ;;
     ffbar <- colsum "ffabar" [//] Ok total ;;
     oobar <- colsum "ooabar" [//] Ok total ;;
     fobar <- colsum "foabar" [//] Ok total ;;
     v <- Ok ffbar [*] Ok oobar ;;
     match v with
     | Some q =>
         if Qlt_bool q 0 then Ok None
         else rround (clamp_unit (rdiv (toR (Ok fobar)) (np_sqrt (Ok v))))
     | None => Err TypeError
     end) None.

(** Common body of RMSFA 97-124 and RMSOA 127-154 of sal1l2_statistics.py; they differ in the
    exceptions they catch. *)
Definition anomaly_rms (caught : list exn) (name : string) : res pyval :=
  catch caught
    (total <- get_total ;;
     m <- colsum name [//] Ok total ;;
     match m with
     | None => Ok None
     | Some q => if Qlt_bool q 0 then Ok None else rround (np_sqrt (Ok (Some q)))
     end) None.
Definition calculate_rmsfa := anomaly_rms tw_exns "ffabar".
Definition calculate_rmsoa := anomaly_rms std_exns "ooabar".

(** val1l2_statistics.py 55-75, [calc_wind_corr], on numbers.  The two roots are numpy floats, so a
    zero product raises a RuntimeWarning; every exception gives [None]. *)
Definition calc_wind_corr (uf vf uo vo uvfo uvff uvoo : Q) : res (option R) :=
  catch std_exns
    (rdiv (Ok (Some (Q2R (uvfo - uf * uo - vf * vo))))
       (rbin Rmult (np_sqrt (pylit (uvff - uf * uf - vf * vf)))
                   (np_sqrt (pylit (uvoo - uo * uo - vo * vo))))) None.

(** val1l2_statistics.py 23-52. *)
Definition calculate_val1l2_anom_corr : res pyval :=
  catch std_exns
    (total <- get_total ;;
     ufabar <- colsum "ufabar" [//] Ok total ;;
     vfabar <- colsum "vfabar" [//] Ok total ;;
     uoabar <- colsum "uoabar" [//] Ok total ;;
     voabar <- colsum "voabar" [//] Ok total ;;
     uvfoabar <- colsum "uvfoabar" [//] Ok total ;;
     uvffabar <- colsum "uvffabar" [//] Ok total ;;
     uvooabar <- colsum "uvooabar" [//] Ok total ;;
     match ufabar, vfabar, uoabar, voabar, uvfoabar, uvffabar, uvooabar with
     | Some uf, Some vf, Some uo, Some vo, Some uvfo, Some uvff, Some uvoo =>
         rround (calc_wind_corr uf vf uo vo uvfo uvff uvoo)
     | _, _, _, _, _, _, _ => Err TypeError
     end) None.

(** vcnt_statistics.py 516-538.  The sums are not divided by the total; the result is not rounded. *)
Definition calculate_vcnt_anom_corr : res (option R) :=
  catch std_exns
    (total <- get_total ;;
     f <- colsum "fa_speed_bar" ;;
     o <- colsum "oa_speed_bar" ;;
     ff <- colsum "uvffabar" ;;
     fo <- colsum "uvfoabar" ;;
     oo <- colsum "uvooabar" ;;
     v <- (Ok total [*] Ok ff [-] Ok f [*] Ok f) [*] (Ok total [*] Ok oo [-] Ok o [*] Ok o) ;;
     clamp_unit (rdiv (toR ((Ok total [*] Ok fo) [-] (Ok f [*] Ok o))) (np_sqrt (Ok v)))) None.

(** ssvar_statistics.py 274-297. *)
Definition calculate_ssvar_spread : res pyval :=
  catch std_exns (total <- get_total ;; rround (np_sqrt (colsum "var_mean" [//] Ok total))) None.
End Stats.

(** vcnt_statistics.py 541-560; the aggregation flag is not used. *)
Definition calculate_vcnt_anom_corr_uncntr (data : tdata) (columns : list string) (aggregation : bool)
  : res (option R) :=
  catch std_exns
    (ff <- colsum data columns "uvffabar" ;;
     oo <- colsum data columns "uvooabar" ;;
     fo <- colsum data columns "uvfoabar" ;;
     v <- Ok ff [*] Ok oo ;;
     clamp_unit (rdiv (toR (Ok fo)) (np_sqrt (Ok v)))) None.

(** ssvar_statistics.py 230-235: the partial-sum columns are read under the anomaly names. *)
Definition anomaly_name (c : string) : string :=
  if String.eqb c "ffbar" then "ffabar"
  else if String.eqb c "fbar" then "fabar"
  else if String.eqb c "oobar" then "ooabar"
  else if String.eqb c "obar" then "oabar"
  else if String.eqb c "fobar" then "foabar"
  else c.
(** ssvar_statistics.py 215-236. *)
Definition calculate_ssvar_anom_corr (data : tdata) (columns : list string) (aggregation : bool) : res pyval :=
  calculate_anom_corr data (map anomaly_name columns) aggregation.

(** ssvar_statistics.py 29-212, 239-271: the remaining scores are those of sl1l2_statistics.py. *)
Definition calculate_ssvar_fbar := calculate_fbar.
Definition calculate_ssvar_fstdev := calculate_fstdev.
Definition calculate_ssvar_obar := calculate_obar.
Definition calculate_ssvar_ostdev := calculate_ostdev.
Definition calculate_ssvar_pr_corr := calculate_pr_corr.
Definition calculate_ssvar_me := calculate_me.
Definition calculate_ssvar_estdev := calculate_estdev.
Definition calculate_ssvar_mse := calculate_mse.
Definition calculate_ssvar_bcmse := calculate_bcmse.
Definition calculate_ssvar_bcrmse := calculate_bcrmse.
Definition calculate_ssvar_rmse := calculate_rmse.
Definition calculate_ssvar_me2 := calculate_me2.
Definition calculate_ssvar_msess := calculate_msess.
(** ssvar_statistics.py 300-314: unprotected. *)
Definition calculate_ssvar_total (data : tdata) (columns : list string) : res pyval :=
  pyround (colsum data columns "total_orig").
(** val1l2_statistics.py 78-92: unprotected. *)
Definition calculate_val1l2_total (data : tdata) (columns : list string) : res pyval :=
  pyround (colsum data columns "total").

(** agg_stat.py 533: [rename(columns={"total": "total_orig", "bin_n": "total"})]. *)
Definition ssvar_rename (c : string) : string :=
  if String.eqb c "total" then "total_orig" else if String.eqb c "bin_n" then "total" else c.

(** agg_stat.py 524-538 [_prepare_ssvar_data]: the renamed columns and the scaled table.  The
    dictionary is indexed directly: an unknown statistic is a KeyError. *)
Definition prepare_ssvar (statistic : string) (data : tdata) (columns : list string)
  : res (tdata * list string) :=
  let columns' := map ssvar_rename columns in
  match assoc statistic STATISTIC_TO_FIELDS with
  | Some cols => d <- scale_columns data columns' cols ;; Ok (d, columns')
  | None => Err KeyError
  end.

(** The statistic of the prepared table (agg_stat.py 237-270). *)
Definition aggregated_ssvar (statistic : string)
  (stat : tdata -> list string -> bool -> res pyval) (data : tdata) (columns : list string) : res pyval :=
  p <- prepare_ssvar statistic data columns ;; stat (fst p) (snd p) true.

(** The statistic of the prepared table for scores that stay real numbers (the two correlations
    of vcnt_statistics.py; agg_stat.py 237-270, 469-478). *)
Definition aggregated_R (statistic : string)
  (stat : tdata -> list string -> bool -> res (option R)) (data : tdata) (columns : list string)
  : res (option R) :=
  d <- prepare statistic data columns ;; stat d columns true.
