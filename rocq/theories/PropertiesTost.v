(** C19: the paired equivalence test. *)
From Coq Require Import Reals.
From Verif Require Import PyBase RealSpec TostModel TostSpec TostProofs.
Open Scope R_scope.
Open Scope string_scope.

(** C19: away from the boundary the three outcomes are the ones the two p-values call for,
    whatever the distribution function is. *)
Theorem C19_classification :
  forall (cdf ppf : Z -> R -> R) n m1 m2 sd1 sd2 r12 low high alpha,
    ValidTost n sd1 sd2 r12 alpha ->
    let d := m1 - m2 in
    let s := sd_diff sd1 sd2 r12 in
    let se := std_error n sd1 sd2 r12 in
    let p_diff := p_difference (cdf (n - 1)%Z) d se in
    let p_eqv := Rmax (p_above (cdf (n - 1)%Z) d (low * s) se) (p_below (cdf (n - 1)%Z) d (high * s) se) in
    0 < se -> p_diff <> 0 -> p_eqv <> 0 -> p_diff <> alpha -> p_eqv <> alpha ->
    exists r,
      tost_paired cdf ppf n m1 m2 sd1 sd2 r12 low high (Some alpha) = Ok r /\
      TostVerdict alpha p_diff p_eqv (combined_outcome r) (test_outcome r) (tost_outcome r).
Proof.
  exact C19_classification_proof.
Qed.
Print Assumptions C19_classification.

Example C19_classification_case :
  ValidTost 2 1 1 0 (1 / 4) /\ 0 < std_error 2 1 1 0 /\
  p_difference cauchy (1 - 0) (std_error 2 1 1 0) = / 2.
Proof. exact C19_classification_case_proof. Qed.

(** C19: a significant difference means that the reported confidence interval excludes 0;
    a significant equivalence means that the reported interval lies inside the bounds. *)
Theorem C19_significance_is_interval :
  forall (cdf ppf : Z -> R -> R) n m1 m2 sd1 sd2 r12 low high alpha r,
    ValidTost n sd1 sd2 r12 alpha ->
    SymmetricDistribution (cdf (n - 1)%Z) (ppf (n - 1)%Z) ->
    let d := m1 - m2 in
    let s := sd_diff sd1 sd2 r12 in
    let se := std_error n sd1 sd2 r12 in
    0 < se ->
    tost_paired cdf ppf n m1 m2 sd1 sd2 r12 low high (Some alpha) = Ok r ->
    let t_lo := interval_low d (ppf (n - 1)%Z (1 - alpha / 2)) se in
    let t_hi := interval_high d (ppf (n - 1)%Z (1 - alpha / 2)) se in
    let e_lo := interval_low d (ppf (n - 1)%Z (1 - alpha)) se in
    let e_hi := interval_high d (ppf (n - 1)%Z (1 - alpha)) se in
    (test_outcome r = "significant" <-> 0 < t_lo \/ t_hi < 0) /\
    (tost_outcome r = "significant" <-> low * s < e_lo /\ e_hi < high * s) /\
    NearestR 7 t_lo (fst (ci_ttest r)) /\ NearestR 7 t_hi (snd (ci_ttest r)) /\
    NearestR 7 e_lo (fst (ci_tost r)) /\ NearestR 7 e_hi (snd (ci_tost r)) /\
    NearestR 7 (low * s) (fst (eqbound r)) /\ NearestR 7 (high * s) (snd (eqbound r)) /\
    NearestR 7 d (dif r).
Proof.
  exact C19_significance_is_interval_proof.
Qed.
Print Assumptions C19_significance_is_interval.

(** The distribution with one degree of freedom meets the hypothesis. *)
Example C19_interval_case :
  SymmetricDistribution cauchy cauchy_q /\ ValidTost 2 1 1 0 (1 / 2) /\ 0 < std_error 2 1 1 0 /\
  exists r, tost_paired (fun _ => cauchy) (fun _ => cauchy_q) 2 1 0 1 1 0 (- 10) 10 (Some (/ 2)) = Ok r.
Proof. exact C19_interval_case_proof. Qed.

(** C19: no spread of the differences, or a p-value that is exactly zero, gives the outcome "none". *)
Theorem C19_undecided :
  forall (cdf ppf : Z -> R -> R) n m1 m2 sd1 sd2 r12 low high alpha,
    ValidTost n sd1 sd2 r12 alpha ->
    let d := m1 - m2 in
    let s := sd_diff sd1 sd2 r12 in
    let se := std_error n sd1 sd2 r12 in
    (se = 0 \/ p_difference (cdf (n - 1)%Z) d se = 0 \/
     Rmax (p_above (cdf (n - 1)%Z) d (low * s) se) (p_below (cdf (n - 1)%Z) d (high * s) se) = 0) ->
    exists r,
      tost_paired cdf ppf n m1 m2 sd1 sd2 r12 low high (Some alpha) = Ok r /\
      combined_outcome r = "none" /\ test_outcome r = "none" /\ tost_outcome r = "none" /\
      t r = (None, None) /\ p r = (None, None).
Proof.
  exact C19_undecided_proof.
Qed.
Print Assumptions C19_undecided.

Example C19_undecided_case : ValidTost 5 1 1 1 (1 / 20) /\ std_error 5 1 1 1 = 0.
Proof. exact C19_undecided_case_proof. Qed.

(** C19: the degrees of freedom and the limits of a plot, which leave a tenth of the wider of interval and bounds on both sides, and the t and p
    values against both bounds where there is a verdict, to 7 decimals. *)
Theorem C19_values :
  forall (cdf ppf : Z -> R -> R) n m1 m2 sd1 sd2 r12 low high alpha r,
    ValidTost n sd1 sd2 r12 alpha ->
    tost_paired cdf ppf n m1 m2 sd1 sd2 r12 low high (Some alpha) = Ok r ->
    let F := cdf (n - 1)%Z in
    let d := m1 - m2 in
    let s := sd_diff sd1 sd2 r12 in
    let se := std_error n sd1 sd2 r12 in
    let e_lo := interval_low d (ppf (n - 1)%Z (1 - alpha)) se in
    let e_hi := interval_high d (ppf (n - 1)%Z (1 - alpha)) se in
    let margin := Rmax (e_hi - e_lo) (high * s - low * s) / 10 in
    NearestR 7 (IZR n - 1) (degrees_of_freedom r) /\
    NearestR 7 (Rmin e_lo (low * s) - margin) (fst (xlim r)) /\
    NearestR 7 (Rmax e_hi (high * s) + margin) (snd (xlim r)) /\
    (combined_outcome r <> "none" ->
     exists t1 t2 p1 p2, t r = (Some t1, Some t2) /\ p r = (Some p1, Some p2) /\
       NearestR 7 ((d - low * s) / se) t1 /\ NearestR 7 ((d - high * s) / se) t2 /\
       NearestR 7 (p_above F d (low * s) se) p1 /\ NearestR 7 (p_below F d (high * s) se) p2).
Proof.
  exact C19_values_proof.
Qed.
Print Assumptions C19_values.

Example C19_values_case :
  exists r, tost_paired (fun _ => cauchy) (fun _ => cauchy_q) 2 1 0 1 1 0 (- 10) 10 (Some (/ 2)) = Ok r /\ combined_outcome r <> "none".
Proof. exact C19_values_case_proof. Qed.

(** C19: with valid arguments the only failure is the unbound outcome on the boundary. *)
Theorem C19_only_failure :
  forall (cdf ppf : Z -> R -> R) n m1 m2 sd1 sd2 r12 low high alpha e,
    ValidTost n sd1 sd2 r12 alpha ->
    tost_paired cdf ppf n m1 m2 sd1 sd2 r12 low high (Some alpha) = Err e ->
    let d := m1 - m2 in
    let s := sd_diff sd1 sd2 r12 in
    let se := std_error n sd1 sd2 r12 in
    e = UnboundLocalError /\ 0 < se /\ p_difference (cdf (n - 1)%Z) d se = alpha /\
    alpha < Rmax (p_above (cdf (n - 1)%Z) d (low * s) se) (p_below (cdf (n - 1)%Z) d (high * s) se).
Proof.
  exact C19_only_failure_proof.
Qed.
Print Assumptions C19_only_failure.

(** C19: arguments outside the documented ranges end the program. *)
Theorem C19_invalid_exits :
  forall (cdf ppf : Z -> R -> R) n m1 m2 sd1 sd2 r12 low high alpha,
    alpha <> 0 -> ~ ValidTost n sd1 sd2 r12 alpha ->
    tost_paired cdf ppf n m1 m2 sd1 sd2 r12 low high (Some alpha) = Err SystemExit.
Proof.
  exact C19_invalid_exits_proof.
Qed.
Print Assumptions C19_invalid_exits.

Example C19_invalid_case : ~ ValidTost 1 1 1 0 (1 / 20).
Proof. exact C19_invalid_case_proof. Qed.

(** C19: a missing or zero alpha means 5 %. *)
Theorem C19_default_alpha :
  forall (cdf ppf : Z -> R -> R) n m1 m2 sd1 sd2 r12 low high,
    tost_paired cdf ppf n m1 m2 sd1 sd2 r12 low high None
      = tost_paired cdf ppf n m1 m2 sd1 sd2 r12 low high (Some (5 / 100)) /\
    tost_paired cdf ppf n m1 m2 sd1 sd2 r12 low high (Some 0)
      = tost_paired cdf ppf n m1 m2 sd1 sd2 r12 low high (Some (5 / 100)).
Proof.
  exact C19_default_alpha_proof.
Qed.
Print Assumptions C19_default_alpha.

(** Finding: "every call with valid arguments returns a result" is false; a p-value equal to
    alpha with no equivalence leaves the outcome unassigned. *)
Theorem C19_always_returns_refuted :
  ~ (forall (cdf ppf : Z -> R -> R) n m1 m2 sd1 sd2 r12 low high alpha,
       ValidTost n sd1 sd2 r12 alpha -> SymmetricDistribution (cdf (n - 1)%Z) (ppf (n - 1)%Z) ->
       exists r, tost_paired cdf ppf n m1 m2 sd1 sd2 r12 low high (Some alpha) = Ok r).
Proof.
  exact C19_always_returns_refuted_proof.
Qed.
Print Assumptions C19_always_returns_refuted.

(** Finding: "a combined outcome that reports a difference goes with a significant test" is false
    when the p-value equals alpha. *)
Theorem C19_outcomes_agree_refuted :
  ~ (forall (cdf ppf : Z -> R -> R) n m1 m2 sd1 sd2 r12 low high alpha r,
       ValidTost n sd1 sd2 r12 alpha -> SymmetricDistribution (cdf (n - 1)%Z) (ppf (n - 1)%Z) ->
       tost_paired cdf ppf n m1 m2 sd1 sd2 r12 low high (Some alpha) = Ok r ->
       combined_outcome r = "diff_eqv" -> test_outcome r = "significant").
Proof.
  exact C19_outcomes_agree_refuted_proof.
Qed.
Print Assumptions C19_outcomes_agree_refuted.
