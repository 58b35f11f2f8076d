(** Time series: autocorrelation (metcalcpy/util/correlation.py, utils.py), the Wald-Wolfowitz runs
    test (metcalcpy/util/wald_wolfowitz_runs_test.py), standard errors and MTD revision statistics
    (utils.py).  Numbers are Python floats; a missing value is [None]. *)
From Coq Require Import Reals Qreals Rpower.
From Verif Require Import PyBase ColumnModel EclvModel BootModel.
Open Scope string_scope.
Open Scope Q_scope.

(** correlation.py 1170-1178, [remove_none]. *)
Fixpoint remove_none (x : list pyval) : list Q :=
  match x with
  | [] => []
  | Some v :: rest => v :: remove_none rest
  | None :: rest => remove_none rest
  end.

(** Builtin [sum]. *)
Definition pysum (l : list Q) : Q := fold_left Qplus l 0.
Definition len (l : list Q) : Q := inject_Z (Z.of_nat (length l)).
(** [statistics.mean]; StatisticsError is a ValueError. *)
Definition st_mean (l : list Q) : res Q :=
  match l with [] => Err ValueError | _ => Ok (pysum l / len l) end.
(** [statistics.median]. *)
Definition st_median (l : list Q) : res Q :=
  let s := sortQ l in
  let n := length s in
  match l with
  | [] => Err ValueError
  | _ =>
      if Nat.odd n then
        match nth_error s (Nat.div2 n) with Some v => Ok v | None => Err IndexError end
      else
        match nth_error s (Nat.div2 n - 1), nth_error s (Nat.div2 n) with
        | Some a, Some b => Ok ((a + b) / 2)
        | _, _ => Err IndexError
        end
  end.

(** correlation.py 331-346, [autocovariance]: the loop over the pairs [x[i + n_lag]], [x[i]]. *)
Fixpoint autocov_loop (pairs : list (pyval * pyval)) (mean_val : Q) (total : Q) (count : Z) : Q * Z :=
  match pairs with
  | [] => (total, count)
  | (Some later, Some x) :: rest =>
      autocov_loop rest mean_val (total + (later - mean_val) * (x - mean_val)) (count + 1)
  | _ :: rest => autocov_loop rest mean_val total count
  end.
Definition autocovariance (x : list pyval) (n_lag : nat) (mean_val : Q) : res Q :=
  let (total, count) := autocov_loop (combine (skipn n_lag x) x) mean_val 0 0 in
  let divisor := (count + Z.of_nat n_lag)%Z in
  if (divisor =? 0)%Z then Err ZeroDivisionError else Ok (1 / inject_Z divisor * total).

(** A float quotient. *)
Definition fdiv (a b : Q) : res Q := if Qeq_bool b 0 then Err ZeroDivisionError else Ok (a / b).

(** correlation.py 284-328, [acf]. *)
Definition default_lag (size : nat) : Z := Int_part (10 * (ln (INR size) / ln 10 - ln 1 / ln 10)).
Definition acf (x : list pyval) (acf_type : string) (lag_max : option Z) : res (option (list Q)) :=
  if negb (String.eqb acf_type "covariance" || String.eqb acf_type "correlation") then Ok None
  else match x with
  | [] => Ok None
  | _ =>
      let size := length x in
      mean_val <- st_mean (remove_none x) ;;
      let lag := match lag_max with Some l => l | None => default_lag size end in
      let lag := Z.min lag (Z.of_nat size - 1) in
      cov_0 <- autocovariance x 0 mean_val ;;
      l <- map_res (fun i =>
             cov <- autocovariance x i mean_val ;;
             if String.eqb acf_type "covariance" then Ok cov else fdiv cov cov_0)
           (seq 0 (Z.to_nat (lag + 1))) ;;
      Ok (Some l)
  end.

(** utils.py 1354-1385, [autocor_coef]. *)
Definition autocor_coef (data : list pyval) : res pyval :=
  let data_valid := remove_none data in
  let n := length data_valid in
  if Nat.ltb n 2 then Ok None
  else
    data_mean <- st_mean data_valid ;;
    let x := map (fun v => v - data_mean) (firstn (n - 1) data_valid) in
    let y := map (fun v => v - data_mean) (tl data_valid) in
    let sx := pysum x in
    let sy := pysum y in
    let sxx := pysum (map (fun m => m * m) x) in
    let sxy := pysum (map (fun p => fst p * snd p) (combine x y)) in
    let n1 := inject_Z (Z.of_nat n - 1) in
    a <- fdiv (sx * sy) (sx - n1 * sxx) ;;
    b <- fdiv sxy (sxx - sx * sx / n1) ;;
    Ok (Some (a + b)).

(** Values of a result dictionary. *)
Inductive obj : Type := ONone | OReal (x : R) | ORat (q : Q) | OInt (z : Z).

(** [np.sign]. *)
Definition sign (q : Q) : Z := Z.sgn (Qnum q).
(** Keys of [itertools.groupby]. *)
Fixpoint group_keys (s : list Z) : list Z :=
  match s with
  | a :: ((b :: _) as rest) => if (a =? b)%Z then group_keys rest else a :: group_keys rest
  | _ => s
  end.
Definition count_if {A : Type} (p : A -> bool) (l : list A) : Z := Z.of_nat (length (filter p l)).

Section Runs.
(** [norm.cdf] of scipy is an arbitrary function. *)
Variable norm_cdf : R -> R.

(** wald_wolfowitz_runs_test.py 41-47; note the blank in one key. *)
Definition empty_result : list (string * obj) :=
  [("statistic", ONone); ("p_value", ONone); ("runs", ONone); ("mean_value ", ONone); ("variance", ONone)].

(** wald_wolfowitz_runs_test.py 62-97: the test on the values without missing ones. *)
Definition runs_core (values : list Q) (threshold : Q) (alternative : string) : res (list (string * obj)) :=
  let x := filter (fun elem => negb (Qeq_bool elem threshold)) values in
  let s := map (fun i => sign (i - threshold)) x in
  let n1 := count_if (fun v => (0 <? v)%Z) s in
  let n2 := count_if (fun v => (v <? 0)%Z) s in
  let keys := group_keys s in
  let r1 := count_if (fun k => (k =? 1)%Z) keys in
  let r2 := count_if (fun k => (k =? -1)%Z) keys in
  let n := (n1 + n2)%Z in
  m <- fdiv (inject_Z (2 * n1 * n2)) (inject_Z (n1 + n2)) ;;
  let mean_value := 1 + m in
  variance <- fdiv (inject_Z (2 * n1 * n2 * (2 * n1 * n2 - n1 - n2))) (inject_Z (n * n * (n - 1))) ;;
  let rr := (r1 + r2)%Z in
  if Qlt_bool variance 0 then Err ValueError
  else if Qeq_bool variance 0 then Err ZeroDivisionError
  else
    let statistic := (Q2R (inject_Z rr - mean_value) / sqrt (Q2R variance))%R in
    let pv0 := norm_cdf statistic in
    let pv := if String.eqb alternative "two.sided" then (2 * Rmin pv0 (1 - pv0))%R
              else if String.eqb alternative "left.sided" then pv0
              else (1 - pv0)%R in
    Ok [("statistic", OReal statistic); ("p_value", OReal pv); ("runs", OInt rr); ("mean_value ", ONone);
        ("variance", ORat variance); ("mean_value", ORat mean_value)].

(** wald_wolfowitz_runs_test.py 22-99, [runs_test].  An unknown threshold is [None], which cannot be
    subtracted; without values the division fails first. *)
Definition runs_test (x : list pyval) (alternative threshold : string) : res (list (string * obj)) :=
  if negb (String.eqb alternative "two.sided" || String.eqb alternative "left.sided"
           || String.eqb alternative "right.sided") then Ok empty_result
  else match x with
  | [] => Ok empty_result
  | _ =>
      let values := remove_none x in
      if String.eqb threshold "median" then t <- st_median values ;; runs_core values t alternative
      else if String.eqb threshold "mean" then t <- st_mean values ;; runs_core values t alternative
      else match values with [] => Err ZeroDivisionError | _ => Err TypeError end
  end.

(** [round(v, 2)]: to the nearest multiple of 1/100, a tie going to the even one. *)
Definition py_round2 (v : R) : Q :=
  let s := (v * 100)%R in
  let f := Int_part s in
  let k := if Rlt_dec (s - IZR f) (/ 2) then f
           else if Rlt_dec (/ 2) (s - IZR f) then (f + 1)%Z
           else if Z.even f then f else (f + 1)%Z in
  Qmake k 100.

(** A dictionary lookup. *)
Fixpoint lookup (k : string) (d : list (string * obj)) : res obj :=
  match d with
  | [] => Err KeyError
  | (k', v) :: rest => if String.eqb k k' then Ok v else lookup k rest
  end.

(** [series_data.revision_id.unique()]: order of first appearance. *)
Fixpoint unique_ids (l : list string) (seen : list string) : list string :=
  match l with
  | [] => []
  | i :: rest => if existsb (String.eqb i) seen then unique_ids rest seen else i :: unique_ids rest (i :: seen)
  end.
(** utils.py 1303-1309: the values of each revision followed by [None], the last [None] removed. *)
Fixpoint joined_values (ids : list string) (rows : list (string * pyval)) : list pyval :=
  match ids with
  | [] => []
  | [i] => map snd (filter (fun r => String.eqb (fst r) i) rows)
  | i :: rest => (map snd (filter (fun r => String.eqb (fst r) i) rows) ++ None :: joined_values rest rows)%list
  end.

(** utils.py 1273-1330, [calculate_mtd_revision_stats].  A data frame with the two needed columns is
    the list of its rows; a NaN in 'stat_value' is missing. *)
Record revision_stats : Type := RevisionStats { ww_run : pyval; auto_cor_p : pyval; auto_cor_r : pyval }.
Definition calculate_mtd_revision_stats (rows : list (string * pyval)) (lag_max : option Z)
  : res revision_stats :=
  match rows with
  | [] => Ok (RevisionStats None None None)
  | _ =>
      let data := joined_values (unique_ids (map fst rows) []) rows in
      mean_val <- st_mean (remove_none data) ;;
      let data := map (fun a => match a with Some v => Some (v - mean_val) | None => None end) data in
      acf_value <- acf data "correlation" lag_max ;;
      cor_r <- match acf_value with
               | None => Ok None
               | Some [] => Err IndexError
               | Some (v :: l) => Ok (Some (py_round2 (Q2R (last l v))))
               end ;;
      let cor_p := Some (py_round2 (Q2R (6270678 # 100000000) / sqrt (INR (length data)))) in
      r <- runs_test data "left.sided" "median" ;;
      p <- lookup "p_value" r ;;
      Ok (RevisionStats (match p with OReal v => Some (py_round2 v) | _ => None end) cor_p cor_r)
  end.
End Runs.

(** A value of a series for the standard errors, where [None] and NaN behave differently. *)
Inductive sval : Type := Num (q : Q) | PyNone | NaN.
Definition is_none (v : sval) : bool := match v with PyNone => true | _ => false end.
Definition is_missing (v : sval) : bool := match v with Num _ => false | _ => true end.
Definition to_pyval (v : sval) : pyval := match v with Num q => Some q | _ => None end.
Definition count_s (p : sval -> bool) (l : list sval) : Z := Z.of_nat (length (filter p l)).

(** [statistics.variance]: fewer than two values are a StatisticsError (ValueError), [None] is a
    TypeError, NaN makes the result NaN. *)
Definition st_variance (l : list sval) : res pyval :=
  if Nat.ltb (length l) 2 then Err ValueError
  else if existsb is_none l then Err TypeError
  else if existsb is_missing l then Ok None
  else
    let v := remove_none (map to_pyval l) in
    let m := pysum v / len v in
    Ok (Some (pysum (map (fun x => (x - m) * (x - m)) v) / inject_Z (Z.of_nat (length v) - 1))).

(** A standard error, the flag, the coefficient and the length. *)
Record std_err : Type := StdErr { se : option R; ratio_flag : Z; ar_1 : Q; se_len : Z }.

(** utils.py 872-888, shared with 946-960: the variance inflation factor.  [autocor_coef] of
    [None] cannot be added to 1. *)
Definition vif (ar1 : pyval) : res (R * Z * Q) :=
  match ar1 with
  | None => Err TypeError
  | Some a =>
      ratio <- fdiv (1 + a) (1 - a) ;;
      let negative := Qlt_bool ratio 0 in
      let ratio' := if negative then 1 else ratio in
      let f := sqrt (Q2R ratio') in
      let f := if Qlt_bool a (3 # 10) || Qle_bool (99 # 100) a then 1%R else f in
      Ok (f, if negative then 1%Z else 0%Z, a)
  end.

(** utils.py 856-897. *)
Definition compute_std_err_from_mean (data : list sval) : res std_err :=
  variance <- st_variance data ;;
  let n := Z.of_nat (length data) in
  match variance with
  | Some v =>
      if Qlt_bool 0 v && (2 <? n - count_s is_none data)%Z then
        c <- autocor_coef (map to_pyval data) ;;
        f <- vif c ;;
        let '(f, flag, a) := f in
        Ok (StdErr (Some (f * sqrt (Q2R v) / sqrt (IZR n))%R) flag a n)
      else Ok (StdErr (Some 0%R) 0 0 n)
  | None => Ok (StdErr (Some 0%R) 0 0 n)
  end.

(** [scipy.stats.iqr(l, interpolation='linear')]; NaN for an empty list. *)
Definition iqr (l : list Q) : res pyval :=
  match l with
  | [] => Ok None
  | _ => a <- percentile l 25 ;; b <- percentile l 75 ;; Ok (Some (b - a))
  end.
Definition median_factor : R := (sqrt (PI / 2) / (1349 / 1000))%R.

(** utils.py 900-925. *)
Definition compute_std_err_from_median_no_vif (data : list sval) : res std_err :=
  q <- iqr (remove_none (map to_pyval data)) ;;
  let m := (Z.of_nat (length data) - count_s is_missing data)%Z in
  match q with
  | Some w =>
      if Qlt_bool 0 w && (2 <? m)%Z then
        Ok (StdErr (Some (Q2R w * median_factor / sqrt (IZR m))%R) 0 0 m)
      else Ok (StdErr (Some 0%R) 0 0 m)
  | None => Ok (StdErr (Some 0%R) 0 0 m)
  end.

(** utils.py 928-968.  The second [stats.iqr(data)] of line 964 includes missing values: [None]
    cannot be ordered, NaN makes the result NaN. *)
Definition compute_std_err_from_median_vif (data : list sval) : res std_err :=
  q <- iqr (remove_none (map to_pyval data)) ;;
  let n := Z.of_nat (length data) in
  let m := (n - count_s is_missing data)%Z in
  match q with
  | Some w =>
      if Qlt_bool 0 w && (2 <? m)%Z then
        c <- autocor_coef (map to_pyval data) ;;
        f <- vif c ;;
        let '(f, flag, a) := f in
        if existsb is_none data then Err TypeError
        else if existsb is_missing data then Ok (StdErr None flag a n)
        else Ok (StdErr (Some (f * (Q2R w * median_factor / sqrt (IZR n)))%R) flag a n)
      else Ok (StdErr (Some 0%R) 0 0 n)
  | None => Ok (StdErr (Some 0%R) 0 0 n)
  end.

(** utils.py 971-983. *)
Definition compute_std_err_from_sum (data : list sval) : res std_err :=
  r <- compute_std_err_from_mean data ;;
  Ok (StdErr (match se r with Some x => Some (x * IZR (Z.of_nat (length data)))%R | None => None end)
        (ratio_flag r) (ar_1 r) (se_len r)).
