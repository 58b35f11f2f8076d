(** C140 to C142: power, Bayes factor and outliers of correlations. *)
From Coq Require Import Reals String List.
From Verif Require DriveModel.
From Verif Require Import PyBase PowerModel PowerSpec PowerProofs.
Import ListNotations.
Open Scope R_scope.

(** C140: unless exactly one argument is missing the call is refused. *)
Theorem C140_arguments : forall ppf F brenth r n power alpha tail, ~ OneMissing r n power alpha ->
  power_corr ppf F brenth r n power alpha tail = Err ValueError.
Proof. exact C140_arguments_proof. Qed.
Print Assumptions C140_arguments.
Example C140_arguments_case : ~ OneMissing (Some (1 / 2)) (Some 20) (Some (8 / 10)) (Some (5 / 100)) /\ OneMissing (Some (1 / 2)) (Some 20) None (Some (5 / 100)).
Proof. exact C140_arguments_case_proof. Qed.

(** C140: arguments outside their ranges are refused, whatever the size. *)
Theorem C140_ranges : forall ppf F brenth r n power alpha tail, OneMissing r n power alpha -> ~ InRange r power alpha ->
  power_corr ppf F brenth r n power alpha tail = Err AssertionError.
Proof. exact C140_ranges_proof. Qed.
Print Assumptions C140_ranges.
Example C140_ranges_case : OneMissing (Some 2) (Some 3) None (Some (5 / 100)) /\ ~ InRange (Some 2) None (Some (5 / 100)).
Proof. exact C140_ranges_case_proof. Qed.

(** C140: up to four observations there is no answer. *)
Theorem C140_small : forall ppf F brenth r n power alpha tail, OneMissing r (Some n) power alpha -> InRange r power alpha -> n <= 4 ->
  power_corr ppf F brenth r (Some n) power alpha tail = Ok None.
Proof. exact C140_small_proof. Qed.
Print Assumptions C140_small.
Example C140_small_case : OneMissing (Some (1 / 2)) (Some 4) None (Some (5 / 100)) /\ InRange (Some (1 / 2)) None (Some (5 / 100)).
Proof. exact C140_small_case_proof. Qed.

(** C140: the power is that of Fisher's z against the critical correlation. *)
Theorem C140_value : forall ppf F brenth r n alpha tail, -1 < r < 1 -> 4 < n -> 0 < alpha < 1 ->
  exists p, power_corr ppf F brenth (Some r) (Some n) None (Some alpha) tail = Ok (Some p) /\
    let two := String.eqb tail "two-sided" in Power F (ppf (if two then 1 - alpha / 2 else 1 - alpha) (n - 2)) two r n p.
Proof. exact C140_value_proof. Qed.
Print Assumptions C140_value.
Example C140_value_case : exists p, power_corr line ramp (fun _ _ _ => Err ValueError) (Some 0) (Some 7) None (Some (/ 2)) "one-sided" = Ok (Some p) /\ p = / 2.
Proof. exact C140_value_case_proof. Qed.

(** C140: the power is a probability. *)
Theorem C140_bounds : forall ppf F brenth r n alpha tail p, NormalLike F -> QuantileLike ppf ->
  power_corr ppf F brenth (Some r) (Some n) None (Some alpha) tail = Ok (Some p) -> 0 <= p <= 1.
Proof. exact C140_bounds_proof. Qed.
Print Assumptions C140_bounds.
Example C140_bounds_case : NormalLike ramp /\ QuantileLike line.
Proof. exact C140_bounds_case_proof. Qed.

(** C140: the sign of the correlation does not matter. *)
Theorem C140_sign : forall ppf F brenth r n power alpha tail,
  power_corr ppf F brenth (Some (- r)) n power alpha tail = power_corr ppf F brenth (Some r) n power alpha tail.
Proof. exact C140_sign_proof. Qed.
Print Assumptions C140_sign.

(** C140: a stronger correlation has no less power. *)
Theorem C140_stronger : forall ppf F brenth r r' n alpha tail p p', NormalLike F -> Peaked F -> QuantileLike ppf -> Rabs r <= Rabs r' ->
  power_corr ppf F brenth (Some r) (Some n) None (Some alpha) tail = Ok (Some p) ->
  power_corr ppf F brenth (Some r') (Some n) None (Some alpha) tail = Ok (Some p') -> p <= p'.
Proof. exact C140_stronger_proof. Qed.
Print Assumptions C140_stronger.
Example C140_stronger_case : Peaked ramp /\ Rabs (- / 4) <= Rabs (/ 2) /\
  exists p, power_corr line ramp (fun _ _ _ => Err ValueError) (Some (/ 2)) (Some 7) None (Some (/ 2)) "two-sided" = Ok (Some p).
Proof. exact C140_stronger_case_proof. Qed.

(** C140: a higher level has no less power, two-sided. *)
Theorem C140_level : forall ppf F brenth r n alpha alpha' p p', NormalLike F -> QuantileLike ppf -> alpha <= alpha' ->
  power_corr ppf F brenth (Some r) (Some n) None (Some alpha) "two-sided" = Ok (Some p) ->
  power_corr ppf F brenth (Some r) (Some n) None (Some alpha') "two-sided" = Ok (Some p') -> p <= p'.
Proof. exact C140_level_proof. Qed.
Print Assumptions C140_level.
Example C140_level_case : exists p, power_corr line ramp (fun _ _ _ => Err ValueError) (Some (/ 2)) (Some 7) None (Some (/ 3)) "two-sided" = Ok (Some p).
Proof. exact C140_level_case_proof. Qed.

(** C140, the same one-sided: false; the levels a and 1 - a have the same power. *)
Theorem C140_mirror : forall ppf F brenth r n alpha tail, QuantileLike ppf -> tail <> "two-sided"%string -> 4 < n -> 0 < alpha < 1 ->
  power_corr ppf F brenth (Some r) (Some n) None (Some (1 - alpha)) tail = power_corr ppf F brenth (Some r) (Some n) None (Some alpha) tail.
Proof. exact C140_mirror_proof. Qed.
Print Assumptions C140_mirror.
Example C140_mirror_case : power_corr line ramp (fun _ _ _ => Err ValueError) (Some 0) (Some 7) None (Some (1 - / 10)) "one-sided" =
  power_corr line ramp (fun _ _ _ => Err ValueError) (Some 0) (Some 7) None (Some (/ 10)) "one-sided".
Proof. exact C140_mirror_case_proof. Qed.
Theorem C140_level_refuted : ~ (forall ppf F brenth r n alpha alpha' p p', NormalLike F -> Peaked F -> QuantileLike ppf -> alpha <= alpha' ->
  power_corr ppf F brenth (Some r) (Some n) None (Some alpha) "one-sided" = Ok (Some p) ->
  power_corr ppf F brenth (Some r) (Some n) None (Some alpha') "one-sided" = Ok (Some p') -> p <= p').
Proof. exact C140_level_refuted_proof. Qed.
Print Assumptions C140_level_refuted.

(** C140: an argument that is found gives the power that was asked for. *)
Theorem C140_found : forall ppf F brenth r n power alpha tail, Solver brenth ->
  (forall x, power_corr ppf F brenth (Some r) None (Some power) (Some alpha) tail = Ok (Some x) ->
     power_corr ppf F brenth (Some r) (Some x) None (Some alpha) tail = Ok (Some power)) /\
  (forall x, power_corr ppf F brenth None (Some n) (Some power) (Some alpha) tail = Ok (Some x) ->
     0 < x < 1 /\ power_corr ppf F brenth (Some x) (Some n) None (Some alpha) tail = Ok (Some power)) /\
  (forall x, power_corr ppf F brenth (Some r) (Some n) (Some power) None tail = Ok (Some x) ->
     0 < x < 1 /\ power_corr ppf F brenth (Some r) (Some n) None (Some x) tail = Ok (Some power)).
Proof. exact C140_found_proof. Qed.
Print Assumptions C140_found.
Example C140_found_case : Solver half_solver /\
  power_corr line ramp half_solver (Some 0) (Some 7) (Some (/ 2)) None "one-sided" = Ok (Some (/ 2)).
Proof. exact C140_found_case_proof. Qed.

(** C140: where there is none between the limits the answer is NaN. *)
Theorem C140_none : forall ppf F r n power alpha tail, OneMissing r n power alpha -> power <> None -> InRange r power alpha ->
  power_corr ppf F (fun _ _ _ => Err ValueError) r n power alpha tail = Ok None.
Proof. exact C140_none_proof. Qed.
Print Assumptions C140_none.
Example C140_none_case : OneMissing None (Some 20) (Some (/ 2)) (Some (/ 20)) /\ InRange None (Some (/ 2)) (Some (/ 20)).
Proof. exact C140_none_case_proof. Qed.

(** C141: Jeffreys' exact Bayes factor is given by the documented formula, and positive. *)
Theorem C141_formula : forall Gamma Beta F gamma quad r n tail method k,
  (forall x, 0 < x -> 0 < Gamma x) -> (forall x y, 0 < x -> 0 < y -> 0 < Beta x y) -> (forall a b c x, 0 <= x < 1 -> 0 < F a b c x) ->
  TailName tail -> DriveModel.lower method = "ly"%string -> -1 < r < 1 -> 2 <= n -> 0 < k ->
  bayesfactor_pearson (fun x => ln (Gamma x)) (fun x y => ln (Beta x y)) F gamma quad (Some r) n tail method k = Ok (Some (LyFactor Gamma Beta F k n r)) /\
  0 < LyFactor Gamma Beta F k n r.
Proof. exact C141_formula_proof. Qed.
Print Assumptions C141_formula.
Example C141_formula_case : (forall x, 0 < x -> 0 < exp x) /\ TailName "Greater" /\ DriveModel.lower "Ly" = "ly"%string.
Proof. exact C141_formula_case_proof. Qed.

(** C141: Wetzels' Bayes factor is the integral of its source, for every way to integrate that looks at positive numbers only. *)
Theorem C141_wetzels : forall lgamma betaln F gamma quad r n tail method k, PositiveOnly quad ->
  DriveModel.lower tail = "two-sided"%string -> DriveModel.lower method = "wetzels"%string -> -1 <= r <= 1 -> 2 <= n ->
  bayesfactor_pearson lgamma betaln F gamma quad (Some r) n tail method k = Ok (Some (sqrt (n / 2) / gamma (1 / 2) * quad (WetzelsTerm n r))).
Proof. exact C141_wetzels_proof. Qed.
Print Assumptions C141_wetzels.
Example C141_wetzels_case : PositiveOnly (fun f => f 1 + f 2) /\ DriveModel.lower "Wetzels" = "wetzels"%string.
Proof. exact C141_wetzels_case_proof. Qed.

(** C141: the sign of the correlation does not matter, for any alternative. *)
Theorem C141_sign : forall lgamma betaln F gamma quad r n tail method k,
  bayesfactor_pearson lgamma betaln F gamma quad (Some (- r)) n tail method k = bayesfactor_pearson lgamma betaln F gamma quad (Some r) n tail method k.
Proof. exact C141_sign_proof. Qed.
Print Assumptions C141_sign.

(** C141: all alternatives have the two-sided factor; one-sided ones never use the integral. *)
Theorem C141_tail : forall lgamma betaln F gamma quad r n tail method k, TailName tail -> MethodName method ->
  (DriveModel.lower method = "ly"%string \/ DriveModel.lower tail <> "two-sided"%string) ->
  bayesfactor_pearson lgamma betaln F gamma quad r n tail method k = bayesfactor_pearson lgamma betaln F gamma quad r n "two-sided" "ly" k.
Proof. exact C141_tail_proof. Qed.
Print Assumptions C141_tail.
Example C141_tail_case : TailName "less" /\ MethodName "wetzels" /\ DriveModel.lower "less" <> "two-sided"%string.
Proof. exact C141_tail_case_proof. Qed.

(** C141: so a one-sided factor does not tell the directions apart. *)
Theorem C141_direction_refuted : ~ (forall lgamma betaln F gamma quad r n k x y, 0 < r < 1 -> 2 <= n -> 0 < k ->
  bayesfactor_pearson lgamma betaln F gamma quad (Some r) n "greater" "ly" k = Ok (Some x) ->
  bayesfactor_pearson lgamma betaln F gamma quad (Some r) n "less" "ly" k = Ok (Some y) -> y < x).
Proof. exact C141_direction_refuted_proof. Qed.
Print Assumptions C141_direction_refuted.

(** C141: what is refused, and when there is no answer. *)
Theorem C141_refused : forall lgamma betaln F gamma quad r n tail method k,
  (~ TailName tail \/ ~ MethodName method -> bayesfactor_pearson lgamma betaln F gamma quad r n tail method k = Err AssertionError) /\
  (TailName tail -> MethodName method ->
    (r = None \/ n < 2 -> bayesfactor_pearson lgamma betaln F gamma quad r n tail method k = Ok None) /\
    (forall v, r = Some v -> 2 <= n -> v < -1 \/ 1 < v -> bayesfactor_pearson lgamma betaln F gamma quad r n tail method k = Err AssertionError) /\
    (forall v, r = Some v -> 2 <= n -> -1 <= v <= 1 -> DriveModel.lower method = "ly"%string -> k = 0 ->
      bayesfactor_pearson lgamma betaln F gamma quad r n tail method k = Err ZeroDivisionError)).
Proof. exact C141_refused_proof. Qed.
Print Assumptions C141_refused.
Example C141_refused_case : ~ TailName "both" /\ TailName "one-sided" /\ MethodName "Wetzels".
Proof. exact C141_refused_case_proof. Qed.

(** C142: the distances are the Mahalanobis distances from the resamples, averaged. *)
Theorem C142_distances : forall a b draws, (2 <= length b)%nat -> draws <> [] -> Forall (Draw b) draws -> Forall (fun d => spread (sample b d) <> 0) draws ->
  bsmahal a b draws = Ok (map (fun v => Some (average (map (fun d => distance (sample b d) v) draws))) a).
Proof. exact C142_distances_proof. Qed.
Print Assumptions C142_distances.
Example C142_distances_case : Forall (Draw square) [[0; 1; 2]%nat; [2; 0; 1]%nat] /\ spread (sample square [0; 1; 2]%nat) <> 0.
Proof. exact C142_distances_case_proof. Qed.

(** C142: a resample without spread ends the call. *)
Theorem C142_degenerate : forall a b draws, (2 <= length b)%nat -> Forall (Draw b) draws -> Exists (fun d => spread (sample b d) = 0) draws ->
  bsmahal a b draws = Err ValueError.
Proof. exact C142_degenerate_proof. Qed.
Print Assumptions C142_degenerate.
Example C142_degenerate_case : Draw square [1; 1; 1]%nat /\ spread (sample square [1; 1; 1]%nat) = 0 /\ spread (sample square [0; 1; 1]%nat) = 0.
Proof. exact C142_degenerate_case_proof. Qed.

(** C142, full statement (data with spread have an answer): false, it depends on the draws. *)
Theorem C142_answer_refuted : ~ (forall b draws, (2 <= length b)%nat -> spread b <> 0 -> Forall (Draw b) draws -> exists m, bsmahal b b draws = Ok m).
Proof. exact C142_answer_refuted_proof. Qed.
Print Assumptions C142_answer_refuted.

(** C142: the units do not matter for the distances and so not for the outliers. *)
Theorem C142_units : forall p q r s a b draws, p <> 0 -> r <> 0 -> (2 <= length b)%nat -> Forall (Draw b) draws ->
  bsmahal (map (units p q r s) a) (map (units p q r s) b) draws = bsmahal a b draws.
Proof. exact C142_units_proof. Qed.
Print Assumptions C142_units.
Example C142_units_case : units 2 1 (-1) 0 (3, 4) = (7, -4).
Proof. exact C142_units_case_proof. Qed.

(** C142: Shepherd's pi is the rank correlation of the data without the rows whose distance is at least 6. *)
Theorem C142_shepherd : forall (A : Type) (spearmanr : list R -> list R -> A) x y draws m, length x = length y ->
  bsmahal (combine x y) (combine x y) draws = Ok m ->
  exists out, shepherd spearmanr x y draws = Ok (spearmanr (unflagged x out) (unflagged y out), out) /\
    Forall2 (fun d o => o = true <-> exists v, d = Some v /\ 6 <= v) m out.
Proof. exact C142_shepherd_proof. Qed.
Print Assumptions C142_shepherd.
Example C142_shepherd_case : unflagged [1; 2; 3] [false; true; false] = [1; 3].
Proof. exact C142_shepherd_case_proof. Qed.

(** C142: series of different lengths are refused, and so is what has no distances. *)
Theorem C142_refused : forall (A : Type) (spearmanr : list R -> list R -> A) x y draws,
  (length x <> length y -> shepherd spearmanr x y draws = Err ValueError) /\
  (forall e, length x = length y -> bsmahal (combine x y) (combine x y) draws = Err e -> shepherd spearmanr x y draws = Err e).
Proof. exact C142_refused_proof. Qed.
Print Assumptions C142_refused.
Example C142_refused_case : bsmahal square square [[1; 1; 1]%nat] = Err ValueError.
Proof. exact C142_refused_case_proof. Qed.
