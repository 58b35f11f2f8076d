(** Scalar partial-sum statistics: metcalcpy/util/sl1l2_statistics.py. *)
From Coq Require Import Reals Qreals.
From Verif Require Import PyBase ColumnModel RealBase.
Open Scope string_scope.
Open Scope Q_scope.

(** [except (TypeError, Warning)] of FSTDEV, OSTDEV, ME2, MSE, RMSE, SI, ESTDEV, BCMSE, BCRMSE:
    ZeroDivisionError and ValueError escape. *)
Definition tw_exns : list exn := [TypeError; PyWarning].

(** [v ** 2]. *)
Definition pysq (v : res pyval) : res pyval :=
  x <- v ;; match x with Some q => Ok (Some (q * q)) | None => Err TypeError end.

(** sl1l2_statistics.py 561-580 [calculate_stddev]: numpy floats throughout, so a zero [n-1]
    raises a RuntimeWarning. *)
Definition calculate_stddev (sum_total sum_sq n : Q) : res (option R) :=
  if Qlt_bool n 1 then Ok None
  else
    v <- pylit (sum_sq - sum_total * sum_total / n) [//] pylit (n - 1) ;;
    match v with
    | Some q => if Qlt_bool q 0 then Ok None else np_sqrt (Ok (Some q))
    | None => Err TypeError
    end.

Section Stats.
Variables (data : tdata) (columns : list string) (aggregation : bool).

Definition colsum (name : string) : res pyval := sum_column_data_by_name data columns name true.
Definition get_total : res pyval := get_total_values data columns aggregation.

(** sl1l2_statistics.py, common body of FBAR 22-44, OBAR 47-69, FOBAR 132-154, FFBAR 157-179, OOBAR 182-204,
    MAE 207-229. *)
Definition mean_stat (name : string) : res pyval :=
  catch std_exns (total <- get_total ;; pyround (colsum name [//] Ok total)) None.
Definition calculate_fbar := mean_stat "fbar".
Definition calculate_obar := mean_stat "obar".
Definition calculate_fobar := mean_stat "fobar".
Definition calculate_ffbar := mean_stat "ffbar".
Definition calculate_oobar := mean_stat "oobar".
Definition calculate_mae := mean_stat "mae".

(** [total1]: 1 or the total (sl1l2_statistics.py 88-91). *)
Definition total1 (total : pyval) : pyval := if aggregation then total else Some 1.

(** sl1l2_statistics.py, common body of FSTDEV 72-99 and OSTDEV 102-129. *)
Definition stdev_stat (name sqname : string) : res pyval :=
  catch tw_exns
    (total <- colsum "total" ;;
     xbar <- colsum name [//] Ok (total1 total) ;;
     xxbar <- colsum sqname [//] Ok (total1 total) ;;
     a <- Ok xbar [*] Ok total ;; b <- Ok xxbar [*] Ok total ;;
     match a, b, total with
     | Some s, Some q, Some n => rround (calculate_stddev s q n)
     | _, _, _ => Err TypeError
     end) None.
Definition calculate_fstdev := stdev_stat "fbar" "ffbar".
Definition calculate_ostdev := stdev_stat "obar" "oobar".

(** sl1l2_statistics.py 232-259 *)
Definition calculate_mbias : res pyval :=
  catch std_exns
    (total <- get_total ;;
     obar <- colsum "obar" [//] Ok total ;;
     if py_eq0 obar then Ok None
     else fbar <- colsum "fbar" [//] Ok total ;; pyround (Ok fbar [//] Ok obar)) None.

(** sl1l2_statistics.py 262-298.  [total ** 2] is the product. *)
Definition calculate_pr_corr : res pyval :=
  catch std_exns
    (total <- colsum "total" ;;
     let t1 := Ok (total1 total) in let T := Ok total [*] Ok total in
     ffbar <- colsum "ffbar" [//] t1 ;;
     fbar <- colsum "fbar" [//] t1 ;;
     oobar <- colsum "oobar" [//] t1 ;;
     obar <- colsum "obar" [//] t1 ;;
     fobar <- colsum "fobar" [//] t1 ;;
     v <- (T [*] Ok ffbar [-] T [*] pysq (Ok fbar)) [*] (T [*] Ok oobar [-] T [*] pysq (Ok obar)) ;;
     c <- rdiv (toR (T [*] Ok fobar [-] T [*] Ok fbar [*] Ok obar)) (np_sqrt (Ok v)) ;;
     match v, c with
     | Some q, Some x =>
         if Qle_bool q 0 then Ok None
         else if Rlt_dec 1 x then Ok None
         else rround (Ok (Some x))
     | _, _ => Err TypeError
     end) None.

(** sl1l2_statistics.py 301-325 *)
Definition calculate_fe : res pyval :=
  catch std_exns
    (total <- get_total ;;
     fbar <- colsum "fbar" [//] Ok total ;;
     obar <- colsum "obar" [//] Ok total ;;
     pyround ((Ok fbar [-] Ok obar) [//] Ok fbar)) None.

(** sl1l2_statistics.py 328-352 *)
Definition calculate_me : res pyval :=
  catch std_exns
    (total <- get_total ;;
     fbar <- colsum "fbar" [//] Ok total ;;
     obar <- colsum "obar" [//] Ok total ;;
     pyround (Ok fbar [-] Ok obar)) None.

(** sl1l2_statistics.py 355-377 *)
Definition calculate_me2 : res pyval :=
  catch tw_exns (me <- calculate_me ;; pyround (pysq (Ok me))) None.

(** sl1l2_statistics.py 380-405 *)
Definition calculate_mse : res pyval :=
  catch tw_exns
    (total <- get_total ;;
     ffbar <- colsum "ffbar" [//] Ok total ;;
     oobar <- colsum "oobar" [//] Ok total ;;
     fobar <- colsum "fobar" [//] Ok total ;;
     pyround (Ok ffbar [+] Ok oobar [-] pylit 2 [*] Ok fobar)) None.

(** sl1l2_statistics.py 408-431.  The operands are rounded Python floats: division by zero is a ZeroDivisionError. *)
Definition calculate_msess : res pyval :=
  catch std_exns
    (ostdev <- calculate_ostdev ;; mse <- calculate_mse ;;
     pyround (pylit 1 [-] Ok mse [/] pysq (Ok ostdev))) None.

(** sl1l2_statistics.py 434-455 *)
Definition calculate_rmse : res pyval :=
  catch tw_exns (rround (np_sqrt calculate_mse)) None.

(** sl1l2_statistics.py 458-481.  Python floats again; ZeroDivisionError is not caught. *)
Definition calculate_si : res pyval :=
  catch tw_exns
    (rmse <- calculate_rmse ;; obar <- calculate_obar ;; pyround (Ok rmse [/] Ok obar)) None.

(** sl1l2_statistics.py 511-534 *)
Definition calculate_bcmse : res pyval :=
  catch tw_exns
    (mse <- calculate_mse ;; me <- calculate_me ;; pyround (Ok mse [-] pysq (Ok me))) None.

(** sl1l2_statistics.py 537-558 *)
Definition calculate_bcrmse : res pyval :=
  catch tw_exns (rround (np_sqrt calculate_bcmse)) None.
End Stats.

(** sl1l2_statistics.py 484-508: [calculate_me] and [calculate_mse] are called without the aggregation flag. *)
Definition calculate_estdev (data : tdata) (columns : list string) (aggregation : bool) : res pyval :=
  catch tw_exns
    (total <- colsum data columns "total" ;;
     me <- calculate_me data columns false ;;
     mse <- calculate_mse data columns false ;;
     a <- Ok me [*] Ok total ;; b <- Ok mse [*] Ok total ;;
     match a, b, total with
     | Some s, Some q, Some n => rround (calculate_stddev s q n)
     | _, _, _ => Err TypeError
     end) None.

(** sl1l2_statistics.py 583-614 [calculate_sl1l2_total], [calculate_sal1l2_total]: no [try]. *)
Definition calculate_sl1l2_total (data : tdata) (columns : list string) : res pyval :=
  pyround (colsum data columns "total").
