(** Wind vectors: metcalcpy/util/met_stats.py, vl1l2_statistics.py and vcnt_statistics.py. *)
From Coq Require Import Reals Qreals.
From Verif Require Import PyBase ColumnModel RealBase AggModel Sl1l2Model EnsModel.
Open Scope string_scope.
Open Scope Q_scope.

(** [np.arctan2(y, x)] in radians.  Rational numbers have one zero, floats two; [negzero] says
    that a zero [y] is the float -0.0, for which the result on the negative half-axis is -pi. *)
Definition np_arctan2 (negzero : bool) (y x : Q) : R :=
  if Qlt_bool 0 x then atan (Q2R y / Q2R x)
  else if Qlt_bool x 0 then
    if Qlt_bool 0 y then (atan (Q2R y / Q2R x) + PI)%R
    else if Qlt_bool y 0 then (atan (Q2R y / Q2R x) - PI)%R
    else if negzero then (- PI)%R else PI
  else
    if Qlt_bool 0 y then (PI / 2)%R else if Qlt_bool y 0 then (- PI / 2)%R else 0%R.

(** met_stats.py 38-54. *)
Definition tolerance : Q := 1 # 100000.
Definition calc_direction (negzero : bool) (u_comp v_comp : Q) : option R :=
  if Qlt_bool (Qabs.Qabs u_comp) tolerance && Qlt_bool (Qabs.Qabs v_comp) tolerance then None
  else
    let direction := np_arctan2 negzero u_comp v_comp in
    Some (direction - 360 * IZR (Int_part (direction / 360)))%R.

(** met_stats.py 57-70, on numbers. *)
Definition calc_speed (u_comp v_comp : Q) : res (option R) :=
  catch tw_exns (np_sqrt (pylit (u_comp * u_comp + v_comp * v_comp))) None.

(** Two numbers; [None] operands are TypeErrors. *)
Definition num2 {A : Type} (a b : pyval) (f : Q -> Q -> res A) : res A :=
  match a, b with Some x, Some y => f x y | _, _ => Err TypeError end.

Section Stats.
Variables (data : tdata) (columns : list string) (aggregation : bool).
Notation colsum := (colsum data columns).
Notation get_total := (get_total data columns aggregation).

(** vl1l2_statistics.py 24-48. *)
Definition calculate_vl1l2_bias : res pyval :=
  catch std_exns
    (total <- get_total ;;
     uvffbar <- colsum "uvffbar" [//] Ok total ;;
     uvoobar <- colsum "uvoobar" [//] Ok total ;;
     rround (rbin Rminus (np_sqrt (Ok uvffbar)) (np_sqrt (Ok uvoobar)))) None.

(** Common body of vl1l2_statistics.py 51-75 (VL1L2_FVAR) and vl1l2_statistics.py 78-102 (VL1L2_OVAR). *)
Definition speed_var (sqname name : string) : res pyval :=
  catch std_exns
    (total <- get_total ;;
     sq <- colsum sqname [//] Ok total ;;
     m <- colsum name [//] Ok total ;;
     pyround (Ok sq [-] Ok m [*] Ok m)) None.
Definition calculate_vl1l2_fvar := speed_var "uvffbar" "f_speed_bar".
Definition calculate_vl1l2_ovar := speed_var "uvoobar" "o_speed_bar".

(** Common body of vl1l2_statistics.py 105-129 (VL1L2_FSPD), vl1l2_statistics.py 132-156 (VL1L2_OSPD), vcnt_statistics.py 281-304 (VCNT_FBAR_SPEED) and
    vcnt_statistics.py 307-330 (VCNT_OBAR_SPEED). *)
Definition vector_speed (uname vname : string) : res pyval :=
  catch std_exns
    (total <- get_total ;;
     u <- colsum uname [//] Ok total ;;
     v <- colsum vname [//] Ok total ;;
     rround (num2 u v calc_speed)) None.
Definition calculate_vl1l2_fspd := vector_speed "ufbar" "vfbar".
Definition calculate_vl1l2_ospd := vector_speed "uobar" "vobar".
Definition calculate_vcnt_fbar_speed := vector_speed "ufbar" "vfbar".
Definition calculate_vcnt_obar_speed := vector_speed "uobar" "vobar".

(** Common body of vl1l2_statistics.py 159-181 (VL1L2_SPEED_ERR) and vcnt_statistics.py 393-417 (VCNT_SPEED_ERR). *)
Definition speed_error (f o : res pyval) : res pyval :=
  catch std_exns (x <- f ;; y <- o ;; pyround (Ok x [-] Ok y)) None.
Definition calculate_vl1l2_speed_err := speed_error calculate_vl1l2_fspd calculate_vl1l2_ospd.
Definition calculate_vcnt_speed_err := speed_error calculate_vcnt_fbar_speed calculate_vcnt_obar_speed.

(** Common body of vl1l2_statistics.py 184-212 (VL1L2_MSVE) and vcnt_statistics.py 127-156 (VCNT_MSVE). *)
Definition calculate_msve : res pyval :=
  catch std_exns
    (total <- get_total ;;
     uvffbar <- colsum "uvffbar" [//] Ok total ;;
     uvfobar <- colsum "uvfobar" [//] Ok total ;;
     uvoobar <- colsum "uvoobar" [//] Ok total ;;
     mse <- Ok uvffbar [-] pylit 2 [*] Ok uvfobar [+] Ok uvoobar ;;
     match mse with
     | Some q => if Qlt_bool q 0 then Ok None else pyround (Ok (Some q))
     | None => Err TypeError
     end) None.
Definition calculate_vl1l2_msve := calculate_msve.
Definition calculate_vcnt_msve := calculate_msve.
(** vl1l2_statistics.py 215-234 (VL1L2_RMSVE), vcnt_statistics.py 159-180 (VCNT_RMSVE). *)
Definition root_of (f : res pyval) : res pyval := catch std_exns (rround (np_sqrt f)) None.
Definition calculate_vl1l2_rmsve := root_of calculate_vl1l2_msve.
Definition calculate_vcnt_rmsve := root_of calculate_vcnt_msve.
(** vcnt_statistics.py 183-203 (VCNT_FSTDEV), vcnt_statistics.py 206-226 (VCNT_OSTDEV). *)
Definition calculate_vcnt_fstdev := root_of calculate_vl1l2_fvar.
Definition calculate_vcnt_ostdev := root_of calculate_vl1l2_ovar.

(** vcnt_statistics.py 25-47 (VCNT_FBAR), vcnt_statistics.py 50-72 (VCNT_OBAR). *)
Definition calculate_vcnt_fbar := mean_stat data columns aggregation "f_speed_bar".
Definition calculate_vcnt_obar := mean_stat data columns aggregation "o_speed_bar".

(** Common body of vcnt_statistics.py 75-98 (VCNT_FS_RMS) and vcnt_statistics.py 101-124 (VCNT_OS_RMS). *)
Definition speed_rms (name : string) : res pyval :=
  catch std_exns (total <- get_total ;; rround (np_sqrt (colsum name [//] Ok total))) None.
Definition calculate_vcnt_fs_rms := speed_rms "uvffbar".
Definition calculate_vcnt_os_rms := speed_rms "uvoobar".

(** Common body of vcnt_statistics.py 229-252 (VCNT_FDIR) and vcnt_statistics.py 255-278 (VCNT_ODIR).  The negation of a zero is -0.0. *)
Definition vector_dir (uname vname : string) : res pyval :=
  catch std_exns
    (total <- get_total ;;
     u <- colsum uname [//] Ok total ;;
     v <- colsum vname [//] Ok total ;;
     num2 u v (fun u v => rround (Ok (calc_direction true (- u) (- v))))) None.
Definition calculate_vcnt_fdir := vector_dir "ufbar" "vfbar".
Definition calculate_vcnt_odir := vector_dir "uobar" "vobar".

(** vcnt_statistics.py 333-360 (VCNT_VDIFF_SPEED). *)
Definition calculate_vcnt_vdiff_speed : res pyval :=
  catch std_exns
    (total <- get_total ;;
     uf <- colsum "ufbar" [//] Ok total ;;
     uo <- colsum "uobar" [//] Ok total ;;
     vf <- colsum "vfbar" [//] Ok total ;;
     vo <- colsum "vobar" [//] Ok total ;;
     du <- Ok uf [-] Ok uo ;;
     dv <- Ok vf [-] Ok vo ;;
     rround (num2 du dv calc_speed)) None.

(** vcnt_statistics.py 363-390 (VCNT_VDIFF_DIR). *)
Definition calculate_vcnt_vdiff_dir : res pyval :=
  catch std_exns
    (total <- get_total ;;
     uf <- colsum "ufbar" [//] Ok total ;;
     uo <- colsum "uobar" [//] Ok total ;;
     vf <- colsum "vfbar" [//] Ok total ;;
     vo <- colsum "vobar" [//] Ok total ;;
     du <- Ok uf [-] Ok uo ;;
     dv <- Ok vf [-] Ok vo ;;
     num2 du dv (fun u v => rround (Ok (calc_direction true (- u) (- v))))) None.

(** vcnt_statistics.py 420-443 (VCNT_SPEED_ABSERR). *)
Definition calculate_vcnt_speed_abserr : res pyval :=
  catch std_exns (pyround (pyabs calculate_vcnt_speed_err)) None.

(** The float product of two non-negative-zero numbers is -0.0. *)
Definition prod_negzero (x y : Q) : bool :=
  Qeq_bool (x * y) 0 && (Qlt_bool x 0 || Qlt_bool y 0).
(** [calc_direction(a, b)] of vcnt_statistics.py 477-480 (VCNT_DIR_ERR); [a] is -0.0 for -0.0 minus 0.0. *)
Definition angle_between (uf vf uo vo : Q) : option R :=
  calc_direction (prod_negzero vf uo && Qeq_bool (uf * vo) 0 && negb (prod_negzero uf vo))
    (vf * uo - uf * vo) (uf * uo + vf * vo).
End Stats.

Section Errors.
Variables (data : tdata) (columns : list string) (aggregation : bool).
Notation colsum := (colsum data columns).

(** vcnt_statistics.py 446-486 (VCNT_DIR_ERR).  Line 471 calls [calculate_vcnt_obar_speed] without the aggregation flag.
    The means are numpy floats: a zero length raises a RuntimeWarning. *)
Definition calculate_vcnt_dir_err : res pyval :=
  catch std_exns
    (f_len <- calculate_vcnt_fbar_speed data columns aggregation ;;
     total <- get_total data columns aggregation ;;
     ufbar <- colsum "ufbar" [//] Ok total ;;
     vfbar <- colsum "vfbar" [//] Ok total ;;
     uf <- Ok ufbar [//] Ok f_len ;;
     vf <- Ok vfbar [//] Ok f_len ;;
     o_len <- calculate_vcnt_obar_speed data columns false ;;
     uobar <- colsum "uobar" [//] Ok total ;;
     vobar <- colsum "vobar" [//] Ok total ;;
     uo <- Ok uobar [//] Ok o_len ;;
     vo <- Ok vobar [//] Ok o_len ;;
     num2 uf vf (fun uf vf => num2 uo vo (fun uo vo => rround (Ok (angle_between uf vf uo vo))))) None.

(** vcnt_statistics.py 489-513 (VCNT_DIR_ABSERR). *)
Definition calculate_vcnt_dir_abser : res pyval :=
  catch std_exns (pyround (pyabs calculate_vcnt_dir_err)) None.
End Errors.

(** vl1l2_statistics.py 237-251: unprotected. *)
Definition calculate_vl1l2_total (data : tdata) (columns : list string) : res pyval :=
  pyround (colsum data columns "total").
