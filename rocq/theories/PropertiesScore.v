(** Property C31: significance classes of the scorecard. *)
From Coq Require Import Reals Qreals Qabs.
From Verif Require Import PyBase BaseSpec AggSpec Sl1l2Spec UtilSpec SeriesSpec TostSpec TostProofs ScoreModel ScoreSpec ScoreProofs.
From Coq Require Import List.
Open Scope string_scope.
Open Scope Q_scope.

(** C31: the class of two samples is the signed level of the advantage of the first model measured
    in half widths of the interval. *)
Theorem C31_class : forall ndays stat v1 v2,
  (0 < ndays)%Z -> length v1 = length v2 -> (2 <= length v1)%nat ->
  exists h m1 m2 r,
    RoundedEven 6 (half_width ndays v1 v2) h /\
    RoundedEven 6 (Q2R (mean_of self v1)) m1 /\ RoundedEven 6 (Q2R (mean_of self v2)) m2 /\
    calculate_diff_sig_emc ndays stat (map Some v1) (map Some v2) = Ok r /\
    0 <= h /\
    (0 < h -> exists s, RoundedEven 3 (Q2R (advantage stat m1 m2 / h)) s /\
       (hole ndays s -> r = None) /\
       (~ hole ndays s -> exists c, r = Some c /\ c == signed_level ndays s)) /\
    (h == 0 ->
       (0 < advantage stat m1 m2 -> r = Some 1) /\
       (advantage stat m1 m2 < 0 -> r = Some (-1)) /\
       (advantage stat m1 m2 == 0 -> r = None)).
Proof. exact C31_class_proof. Qed.
Print Assumptions C31_class.

Example C31_class_case :
  calculate_diff_sig_emc 2 "RMSE" (map Some [0; 0]) (map Some [1; 3]) = Ok (Some (95 # 100)) /\
  ~ hole 2 (1020 # 1000) /\ signed_level 2 (1020 # 1000) = 95 # 100.
Proof. exact C31_class_case_proof. Qed.


(** C31: signed levels are 0, .95, .99 or 1 with a sign, change sign with their argument and grow
    with it. *)
Theorem C31_levels : forall ndays s s',
  (In (signed_level ndays s) [1; 99 # 100; 95 # 100; 0] \/ In (- signed_level ndays s) [1; 99 # 100; 95 # 100; 0]) /\
  signed_level ndays (- s) == - signed_level ndays s /\
  (s <= s' -> signed_level ndays s <= signed_level ndays s').
Proof. exact C31_levels_proof. Qed.
Print Assumptions C31_levels.

(** C31: exchanging the models changes the sign of the class, if both are defined and no bias-like
    statistic has two means of the same size. *)
Theorem C31_exchange : forall ndays stat v1 v2 c c',
  (0 < ndays)%Z -> length v1 = length v2 -> (2 <= length v1)%nat ->
  calculate_diff_sig_emc ndays stat (map Some v1) (map Some v2) = Ok (Some c) ->
  calculate_diff_sig_emc ndays stat (map Some v2) (map Some v1) = Ok (Some c') ->
  (bias_like stat = true -> forall m1 m2,
     RoundedEven 6 (Q2R (mean_of self v1)) m1 -> RoundedEven 6 (Q2R (mean_of self v2)) m2 ->
     ~ Qabs m1 == Qabs m2) ->
  c' == - c.
Proof. exact C31_exchange_proof. Qed.
Print Assumptions C31_exchange.

Example C31_exchange_case :
  calculate_diff_sig_emc 2 "ME" (map Some [0; 0]) (map Some [1; 3]) = Ok (Some (95 # 100)) /\
  calculate_diff_sig_emc 2 "ME" (map Some [1; 3]) (map Some [0; 0]) = Ok (Some (- (95 # 100))) /\
  forall m1 m2, RoundedEven 6 (Q2R (mean_of self [0; 0])) m1 -> RoundedEven 6 (Q2R (mean_of self [1; 3])) m2 ->
    ~ Qabs m1 == Qabs m2.
Proof. exact C31_exchange_case_proof. Qed.


(** C31: the condition is needed: for means of opposite sign both orders favour the first model. *)
Theorem C31_exchange_bias_refuted :
  exists ndays v1 v2,
    calculate_diff_sig_emc ndays "ME" (map Some v1) (map Some v2) = Ok (Some 1) /\
    calculate_diff_sig_emc ndays "ME" (map Some v2) (map Some v1) = Ok (Some 1).
Proof. exact C31_exchange_bias_refuted_proof. Qed.
Print Assumptions C31_exchange_bias_refuted.

(** C31: two samples that differ by more than 200 half widths have no class. *)
Theorem C31_defined_refuted :
  exists ndays v1 v2,
    calculate_diff_sig_emc ndays "ACC" (map Some v1) (map Some v2) = Ok None /\
    calculate_diff_sig_emc ndays "ACC" (map Some v2) (map Some v1) = Ok (Some 1).
Proof. exact C31_defined_refuted_proof. Qed.
Print Assumptions C31_defined_refuted.

(** C31: of error measures only names starting with RMSE and RMSVE are treated as such: for the mean
    absolute error the larger error counts as the better model. *)
Theorem C31_error_measure_refuted :
  exists ndays v1 v2,
    (forall x y, In x v1 -> In y v2 -> y < x) /\
    calculate_diff_sig_emc ndays "MAE" (map Some v1) (map Some v2) = Ok (Some 1) /\
    calculate_diff_sig_emc ndays "RMSE" (map Some v1) (map Some v2) = Ok (Some (-1)).
Proof. exact C31_error_measure_refuted_proof. Qed.
Print Assumptions C31_error_measure_refuted.

(** C31: other inputs: samples of different lengths, too few cases, missing values. *)
Theorem C31_errors : forall ndays stat v1 v2,
  (0 < ndays)%Z ->
  (length v1 <> length v2 -> length v1 <> 1%nat -> length v2 <> 1%nat ->
     calculate_diff_sig_emc ndays stat v1 v2 = Err ValueError) /\
  (v1 = [] -> v2 = [] -> calculate_diff_sig_emc ndays stat v1 v2 = Err ValueError) /\
  (length v1 = 1%nat -> calculate_diff_sig_emc ndays stat v1 v2 = Err ZeroDivisionError) /\
  (length v1 = length v2 -> (2 <= length v1)%nat -> In None v1 \/ In None v2 ->
     calculate_diff_sig_emc ndays stat v1 v2 = Ok None).
Proof. exact C31_errors_proof. Qed.
Print Assumptions C31_errors.

Example C31_errors_case :
  calculate_diff_sig_emc 10 "RMSE" [Some 1; None] [Some 2; Some 3] = Ok None /\
  calculate_diff_sig_emc 10 "RMSE" [Some 1] [Some 2] = Err ZeroDivisionError.
Proof. exact C31_errors_case_proof. Qed.


(** C31: the other method: the confidence of the t test, negated if the first mean is farther from
    the perfect score. *)
Theorem C31_confidence : forall cdf ppf stat name p v1 v2,
  (forall df, SymmetricDistribution (cdf df) (ppf df)) ->
  length v1 = length v2 -> (2 <= length v1)%nat ->
  0 < codev self self (case_differences v2 v1) ->
  Capitals stat name ->
  (p = 0 /\ In name perfect_score_zero \/ p = 1 /\ In name perfect_score_one) ->
  let n := Z.of_nat (length v1) in
  let confidence := (1 - 2 * (1 - cdf (n - 1)%Z (Rabs (t_statistic (case_differences v2 v1)))))%R in
  (0 <= confidence < 1)%R /\
  (farther p (mean_of self v1) (mean_of self v2) ->
     calculate_diff_sig_ncar cdf stat v1 v2 = Ok (OutNum (- confidence))) /\
  (~ farther p (mean_of self v1) (mean_of self v2) ->
     calculate_diff_sig_ncar cdf stat v1 v2 = Ok (OutNum confidence)).
Proof. exact C31_confidence_proof. Qed.
Print Assumptions C31_confidence.

Example C31_confidence_case :
  (forall df : Z, SymmetricDistribution ((fun _ => cauchy) df) ((fun _ => cauchy_q) df)) /\
  0 < codev self self (case_differences [1; 3] [2; 7]) /\ Capitals "rmse" "RMSE" /\ In "RMSE" perfect_score_zero /\
  farther 0 (mean_of self [2; 7]) (mean_of self [1; 3]).
Proof. exact C31_confidence_case_proof. Qed.


(** C31: special cases of that method. *)
Theorem C31_confidence_other : forall cdf stat name v1 v2,
  Capitals stat name ->
  (length v1 <> length v2 -> calculate_diff_sig_ncar cdf stat v1 v2 = Err TypeError) /\
  (length v1 = length v2 -> (length v1 < 2)%nat -> calculate_diff_sig_ncar cdf stat v1 v2 = Err ValueError) /\
  (length v1 = length v2 -> (2 <= length v1)%nat -> In name without_perfect_score ->
     calculate_diff_sig_ncar cdf stat v1 v2 = Ok OutNone) /\
  (length v1 = length v2 -> (2 <= length v1)%nat -> ~ In name without_perfect_score ->
     (forall a b, In (a, b) (combine v1 v2) -> a == b) ->
     calculate_diff_sig_ncar cdf stat v1 v2 = Ok OutNaN).
Proof. exact C31_confidence_other_proof. Qed.
Print Assumptions C31_confidence_other.

Example C31_confidence_other_case :
  Capitals "fbar" "FBAR" /\ In "FBAR" without_perfect_score /\ ~ In "RMSE" without_perfect_score.
Proof. exact C31_confidence_other_case_proof. Qed.
