(** What a paired two-one-sided test says. *)
From Coq Require Import Reals.
From Verif Require Import PyBase RealSpec.
Open Scope R_scope.

(** The arguments the documentation asks for. *)
Definition ValidTost (n : Z) (sd1 sd2 r alpha : R) : Prop :=
  (2 <= n)%Z /\ 0 < sd1 /\ 0 < sd2 /\ -1 <= r <= 1 /\ 0 < alpha < 1.

(** Standard deviation of the paired differences and its standard error. *)
Definition sd_diff (sd1 sd2 r : R) : R := sqrt (sd1 ^ 2 + sd2 ^ 2 - 2 * r * sd1 * sd2).
Definition std_error (n : Z) (sd1 sd2 r : R) : R := sd_diff sd1 sd2 r / sqrt (IZR n).

(** Two-sided p-value of "the means differ by d0 = 0", and the larger of the two one-sided
    p-values of "the difference lies outside ]low, high[". *)
Definition p_difference (F : R -> R) (d se : R) : R := 2 * (1 - F (Rabs (d / se))).
Definition p_above (F : R -> R) (d low se : R) : R := 1 - F ((d - low) / se).
Definition p_below (F : R -> R) (d high se : R) : R := F ((d - high) / se).

(** A symmetric continuous distribution with distribution function [F] and quantiles [Q]:
    the properties of Student's t distribution that are used. *)
Record SymmetricDistribution (F Q : R -> R) : Prop := {
  sd_increasing : forall x y, x < y -> F x < F y;
  sd_symmetric : forall x, F (- x) = 1 - F x;
  sd_below_one : forall x, F x < 1;
  sd_quantile : forall p, 0 < p < 1 -> F (Q p) = p
}.

(** The statistic of a difference [d]: the interval [d - q se, d + q se]. *)
Definition interval_low (d q se : R) : R := d - q * se.
Definition interval_high (d q se : R) : R := d + q * se.

(** Agreement of the three reported outcomes with two p-values. *)
Open Scope string_scope.
Inductive TostVerdict (alpha p_diff p_eqv : R) : string -> string -> string -> Prop :=
| V_both : p_diff < alpha -> p_eqv < alpha ->
    TostVerdict alpha p_diff p_eqv "diff_eqv" "significant" "significant"
| V_diff : p_diff < alpha -> alpha < p_eqv ->
    TostVerdict alpha p_diff p_eqv "diff_no_eqv" "significant" "non-significant"
| V_eqv : alpha < p_diff -> p_eqv < alpha ->
    TostVerdict alpha p_diff p_eqv "no_diff_eqv" "non-significant" "significant"
| V_none : alpha < p_diff -> alpha < p_eqv ->
    TostVerdict alpha p_diff p_eqv "no_diff_no_eqv" "non-significant" "non-significant".
