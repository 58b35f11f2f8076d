(** Significance of the difference of two models. *)
From Coq Require Import Reals Qreals Qabs.
From Verif Require Import PyBase BaseSpec AggSpec Sl1l2Spec SeriesSpec.
Open Scope string_scope.
Open Scope Q_scope.

(** [w] is [v] rounded to [d] decimals, a tie going to the even side. *)
Definition RoundedEven (d : nat) (v : R) (w : Q) : Prop :=
  exists k : Z, w * inject_Z (10 ^ Z.of_nat d) == inject_Z k /\
    (Rabs (v * IZR (10 ^ Z.of_nat d) - IZR k) <= / 2)%R /\
    ((Rabs (v * IZR (10 ^ Z.of_nat d) - IZR k) = / 2)%R -> Z.even k = true).

(** Case-by-case differences, second minus first. *)
Definition case_differences (v1 v2 : list Q) : list Q := map (fun p => snd p - fst p) (combine v1 v2).

(** Half width of the 95% interval of the difference: 1.96 times the standard deviation over the
    square root of n - 1, sums being divided by the number of days. *)
Definition half_width (ndays : Z) (v1 v2 : list Q) : R :=
  let d := case_differences v1 v2 in
  let m := total_of self d / inject_Z ndays in
  let v := total_of (fun x => (x - m) * (x - m)) d / inject_Z ndays in
  (Q2R (196 # 100) * sqrt (Q2R v) / sqrt (IZR (Z.of_nat (length v1) - 1)))%R.

(** Statistics for which the sign of the mean does not matter, and for which smaller is better. *)
Definition bias_like (stat : string) : bool := String.prefix "ME" stat || String.prefix "BIAS" stat.
Definition rmse_like (stat : string) : bool := String.prefix "RMSE" stat || String.prefix "RMSVE" stat.

(** Advantage of the first model over the second for means [m1], [m2]. *)
Definition advantage (stat : string) (m1 m2 : Q) : Q :=
  if bias_like stat then
    if Qlt_le_dec (Qabs m2) (Qabs m1) then - Qabs (m2 - m1) else Qabs (m2 - m1)
  else if rmse_like stat then m2 - m1
  else m1 - m2.

(** Student quantiles for 95%, 99% and 99.9%. *)
Definition critical (ndays : Z) : Q * Q * Q :=
  if Z_lt_dec ndays 20 then (2228 # 1000, 3169 # 1000, 4587 # 1000)
  else if Z_lt_dec ndays 40 then (2042 # 1000, 275 # 100, 3646 # 1000)
  else if Z_lt_dec ndays 80 then (2, 266 # 100, 346 # 100)
  else (196 # 100, 2576 # 1000, 3291 # 1000).

(** Level reached by an advantage of [s] half widths: the half width is scaled from the 95% to the
    99% and the 99.9% level and the quotient compared with 1 after rounding to three decimals. *)
Definition level (ndays : Z) (s : Q) : Q :=
  let '(c95, c99, c999) := critical ndays in
  if Qlt_le_dec s 1 then 0
  else if Qlt_le_dec (s * c95 / c99) (9995 # 10000) then 95 # 100
  else if Qlt_le_dec (s * c95 / c999) (9995 # 10000) then 99 # 100
  else 1.
Definition signed_level (ndays : Z) (s : Q) : Q :=
  if Qlt_le_dec s 0 then - level ndays (- s) else level ndays s.

(** The value for which no class is defined. *)
Definition hole (ndays : Z) (s : Q) : Prop :=
  let '(c95, _, c999) := critical ndays in - (100 + (5 # 10000)) <= s * c95 / c999 <= - (100 - (5 # 10000)).

(** Two-sided confidence that the mean difference is not zero, for a t distribution function [F]. *)
Definition t_statistic (d : list Q) : R :=
  (Q2R (mean_of self d) / (sqrt (Q2R (codev self self d / (count d - 1))) / sqrt (IZR (Z.of_nat (length d)))))%R.
