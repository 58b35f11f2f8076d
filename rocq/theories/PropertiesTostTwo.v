(** C134: the two versions of the paired equivalence test. *)
From Coq Require Import Reals.
From Verif Require Import PyBase RealSpec TostModel TostSpec TostProofs TostTwoModel TostTwoProofs.
Open Scope R_scope.
Open Scope string_scope.

(** C134: where the differences have a spread and neither p-value is zero both functions do the same. *)
Theorem C134_agree : forall (cdf ppf : Z -> R -> R) n m1 m2 sd1 sd2 r12 low high alpha,
  ValidTost n sd1 sd2 r12 alpha ->
  let d := m1 - m2 in
  let s := sd_diff sd1 sd2 r12 in
  let se := std_error n sd1 sd2 r12 in
  0 < se -> p_difference (cdf (n - 1)%Z) d se <> 0 ->
  Rmax (p_above (cdf (n - 1)%Z) d (low * s) se) (p_below (cdf (n - 1)%Z) d (high * s) se) <> 0 ->
  tost_paired_two cdf ppf n m1 m2 sd1 sd2 r12 low high (Some alpha) = tost_paired cdf ppf n m1 m2 sd1 sd2 r12 low high (Some alpha).
Proof. exact C134_agree_proof. Qed.
Print Assumptions C134_agree.
Example C134_agree_case : ValidTost 2 1 1 0 (1 / 4) /\ 0 < std_error 2 1 1 0 /\ p_difference cauchy (1 - 0) (std_error 2 1 1 0) <> 0 /\
  Rmax (p_above cauchy (1 - 0) (- 10 * sd_diff 1 1 0) (std_error 2 1 1 0)) (p_below cauchy (1 - 0) (10 * sd_diff 1 1 0) (std_error 2 1 1 0)) <> 0.
Proof. exact C134_agree_case_proof. Qed.

(** C134: arguments outside their ranges end both. *)
Theorem C134_invalid : forall (cdf ppf : Z -> R -> R) n m1 m2 sd1 sd2 r12 low high alpha, alpha <> 0 -> ~ ValidTost n sd1 sd2 r12 alpha ->
  tost_paired_two cdf ppf n m1 m2 sd1 sd2 r12 low high (Some alpha) = Err SystemExit /\
  tost_paired cdf ppf n m1 m2 sd1 sd2 r12 low high (Some alpha) = Err SystemExit.
Proof. exact C134_invalid_proof. Qed.
Print Assumptions C134_invalid.
Example C134_invalid_case : ~ ValidTost 1 1 1 0 (1 / 20).
Proof. exact C134_invalid_case_proof. Qed.

(** C134: this version also decides when a p-value is zero. *)
Theorem C134_verdict : forall (cdf ppf : Z -> R -> R) n m1 m2 sd1 sd2 r12 low high alpha,
  ValidTost n sd1 sd2 r12 alpha ->
  let d := m1 - m2 in
  let s := sd_diff sd1 sd2 r12 in
  let se := std_error n sd1 sd2 r12 in
  let p_diff := p_difference (cdf (n - 1)%Z) d se in
  let p_eqv := Rmax (p_above (cdf (n - 1)%Z) d (low * s) se) (p_below (cdf (n - 1)%Z) d (high * s) se) in
  0 < se -> p_diff <> alpha -> p_eqv <> alpha ->
  exists r, tost_paired_two cdf ppf n m1 m2 sd1 sd2 r12 low high (Some alpha) = Ok r /\
    TostVerdict alpha p_diff p_eqv (combined_outcome r) (test_outcome r) (tost_outcome r).
Proof. exact C134_verdict_proof. Qed.
Print Assumptions C134_verdict.
Example C134_verdict_case : ValidTost 2 1 1 0 (1 / 4) /\ 0 < std_error 2 1 1 0 /\ p_difference step (1 - 0) (std_error 2 1 1 0) = 0.
Proof. exact C134_verdict_case_proof. Qed.

(** C134: without a spread it divides by zero, where the other gives the outcome "none". *)
Theorem C134_no_spread : forall (cdf ppf : Z -> R -> R) n m1 m2 sd1 sd2 r12 low high alpha,
  ValidTost n sd1 sd2 r12 alpha -> std_error n sd1 sd2 r12 = 0 ->
  tost_paired_two cdf ppf n m1 m2 sd1 sd2 r12 low high (Some alpha) = Err ZeroDivisionError /\
  exists r, tost_paired cdf ppf n m1 m2 sd1 sd2 r12 low high (Some alpha) = Ok r /\ combined_outcome r = "none".
Proof. exact C134_no_spread_proof. Qed.
Print Assumptions C134_no_spread.
Example C134_no_spread_case : ValidTost 5 1 1 1 (1 / 20) /\ std_error 5 1 1 1 = 0.
Proof. exact C134_no_spread_case_proof. Qed.

(** Finding: they differ where a p-value is exactly zero, as it is for floats in the far tail. *)
Theorem C134_same_refuted :
  ~ (forall (cdf ppf : Z -> R -> R) n m1 m2 sd1 sd2 r12 low high alpha r r',
       ValidTost n sd1 sd2 r12 alpha -> (forall x, cdf (n - 1)%Z (- x) = 1 - cdf (n - 1)%Z x) -> (forall x y, x <= y -> cdf (n - 1)%Z x <= cdf (n - 1)%Z y) ->
       tost_paired_two cdf ppf n m1 m2 sd1 sd2 r12 low high (Some alpha) = Ok r ->
       tost_paired cdf ppf n m1 m2 sd1 sd2 r12 low high (Some alpha) = Ok r' -> combined_outcome r = combined_outcome r').
Proof. exact C134_same_refuted_proof. Qed.
Print Assumptions C134_same_refuted.

(** C134: the numbers of a result, to 7 decimals: t and p against both bounds, the difference, the degrees of freedom, both intervals, the bounds
    and the limits of a plot, which leaves a tenth of the wider of interval and bounds on both sides. *)
Theorem C134_values : forall (cdf ppf : Z -> R -> R) n m1 m2 sd1 sd2 r12 low high alpha r,
  ValidTost n sd1 sd2 r12 alpha ->
  let F := cdf (n - 1)%Z in
  let d := m1 - m2 in
  let s := sd_diff sd1 sd2 r12 in
  let se := std_error n sd1 sd2 r12 in
  let e_lo := interval_low d (ppf (n - 1)%Z (1 - alpha)) se in
  let e_hi := interval_high d (ppf (n - 1)%Z (1 - alpha)) se in
  let margin := Rmax (e_hi - e_lo) (high * s - low * s) / 10 in
  tost_paired_two cdf ppf n m1 m2 sd1 sd2 r12 low high (Some alpha) = Ok r ->
  (exists t1 t2, t r = (Some t1, Some t2) /\ NearestR 7 ((d - low * s) / se) t1 /\ NearestR 7 ((d - high * s) / se) t2) /\
  (exists p1 p2, p r = (Some p1, Some p2) /\ NearestR 7 (p_above F d (low * s) se) p1 /\ NearestR 7 (p_below F d (high * s) se) p2) /\
  NearestR 7 d (dif r) /\ NearestR 7 (IZR n - 1) (degrees_of_freedom r) /\
  NearestR 7 e_lo (fst (ci_tost r)) /\ NearestR 7 e_hi (snd (ci_tost r)) /\
  NearestR 7 (interval_low d (ppf (n - 1)%Z (1 - alpha / 2)) se) (fst (ci_ttest r)) /\
  NearestR 7 (interval_high d (ppf (n - 1)%Z (1 - alpha / 2)) se) (snd (ci_ttest r)) /\
  NearestR 7 (low * s) (fst (eqbound r)) /\ NearestR 7 (high * s) (snd (eqbound r)) /\
  NearestR 7 (Rmin e_lo (low * s) - margin) (fst (xlim r)) /\ NearestR 7 (Rmax e_hi (high * s) + margin) (snd (xlim r)).
Proof. exact C134_values_proof. Qed.
Print Assumptions C134_values.
Example C134_values_case : exists r, tost_paired_two (fun _ => step) (fun _ _ => 0) 2 1 0 1 1 0 (- 10) 10 (Some (1 / 4)) = Ok r.
Proof. exact C134_values_case_proof. Qed.

(** C134: a level that is missing or zero is 5 %. *)
Theorem C134_default_alpha : forall (cdf ppf : Z -> R -> R) n m1 m2 sd1 sd2 r12 low high,
  tost_paired_two cdf ppf n m1 m2 sd1 sd2 r12 low high None = tost_paired_two cdf ppf n m1 m2 sd1 sd2 r12 low high (Some (5 / 100)) /\
  tost_paired_two cdf ppf n m1 m2 sd1 sd2 r12 low high (Some 0) = tost_paired_two cdf ppf n m1 m2 sd1 sd2 r12 low high (Some (5 / 100)).
Proof. exact C134_default_alpha_proof. Qed.
Print Assumptions C134_default_alpha.

(** C134: with a spread it fails exactly where the p-value of the difference is the level and there is no equivalence. *)
Theorem C134_unbound : forall (cdf ppf : Z -> R -> R) n m1 m2 sd1 sd2 r12 low high alpha,
  ValidTost n sd1 sd2 r12 alpha ->
  let d := m1 - m2 in
  let s := sd_diff sd1 sd2 r12 in
  let se := std_error n sd1 sd2 r12 in
  0 < se ->
  forall e, tost_paired_two cdf ppf n m1 m2 sd1 sd2 r12 low high (Some alpha) = Err e <->
    e = UnboundLocalError /\ p_difference (cdf (n - 1)%Z) d se = alpha /\
    alpha < Rmax (p_above (cdf (n - 1)%Z) d (low * s) se) (p_below (cdf (n - 1)%Z) d (high * s) se).
Proof. exact C134_unbound_proof. Qed.
Print Assumptions C134_unbound.
Example C134_unbound_case : ValidTost 2 1 1 0 (/ 2) /\ 0 < std_error 2 1 1 0 /\
  tost_paired_two (fun _ => cauchy) (fun _ => cauchy_q) 2 1 0 1 1 0 (- (1 / 1000)) (1 / 1000) (Some (/ 2)) = Err UnboundLocalError.
Proof. exact C134_unbound_case_proof. Qed.
