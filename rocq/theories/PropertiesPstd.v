(** Properties C26 and C27: probability forecasts. *)
From Coq Require Import Sorted.
From Verif Require Import PyBase ColumnModel BaseSpec PstdModel PstdSpec PstdProofs.
Open Scope string_scope.
Open Scope Q_scope.

(** ** C26 *)

(** The points of the ROC curve: one per distinct probability issued, in ascending order; each is
    the share of events and of non-events with a higher probability; both fall as the probability
    rises and lie in [0,1]. *)
Theorem C26_roc_points : forall data columns bs,
  ProbabilityTable data columns bs -> Counts bs -> 0 < events bs -> 0 < nonevents bs ->
  exists df points,
    calc_common_stats data columns = Ok df /\ calc_pct_roc df = Ok points /\
    StronglySorted Qlt (map roc_thresh points) /\
    (forall b, In b bs -> 0 < cases b -> exists p, In p points /\ roc_thresh p == prob b) /\
    (forall p, In p points -> exists b, In b bs /\ 0 < cases b /\ roc_thresh p == prob b) /\
    (forall p, In p points -> exists h f,
       roc_pody p = Some h /\ roc_pofd p = Some f /\
       h == hit_share bs (roc_thresh p) /\ f == false_share bs (roc_thresh p) /\
       0 <= h <= 1 /\ 0 <= f <= 1) /\
    (forall p q h h' f f', In p points -> In q points -> roc_thresh p <= roc_thresh q ->
       roc_pody p = Some h -> roc_pody q = Some h' -> roc_pofd p = Some f -> roc_pofd q = Some f' ->
       h' <= h /\ f' <= f).
Proof. exact C26_roc_points_proof. Qed.
Print Assumptions C26_roc_points.

(** The area under the curve is the chance that an event case got a higher probability than a
    non-event case (ties counting one half), rounded; it lies in [0,1]. *)
Theorem C26_area_is_discrimination : forall data columns bs,
  ProbabilityTable data columns bs -> Counts bs -> 0 < events bs -> 0 < nonevents bs ->
  exists r, calculate_pstd_roc_auc data columns = Ok (Some r) /\
    Nearest 7 (discrimination bs) r /\ 0 <= r <= 1.
Proof. exact C26_area_is_discrimination_proof. Qed.
Print Assumptions C26_area_is_discrimination.

(** A forecast that gives every event case a higher probability than every non-event case has area
    one, the reverse has area zero. *)
Theorem C26_perfect_area : forall data columns bs,
  ProbabilityTable data columns bs -> Counts bs -> 0 < events bs -> 0 < nonevents bs ->
  ((forall b b', In b bs -> In b' bs -> 0 < yes b -> 0 < no b' -> prob b' < prob b) ->
   exists r, calculate_pstd_roc_auc data columns = Ok (Some r) /\ r == 1) /\
  ((forall b b', In b bs -> In b' bs -> 0 < yes b -> 0 < no b' -> prob b < prob b') ->
   exists r, calculate_pstd_roc_auc data columns = Ok (Some r) /\ r == 0).
Proof. exact C26_perfect_area_proof. Qed.
Print Assumptions C26_perfect_area.

(** If the event is as frequent in every bin the area is one half. *)
Theorem C26_no_skill_area : forall data columns bs,
  ProbabilityTable data columns bs -> Counts bs -> 0 < events bs -> 0 < nonevents bs ->
  (forall b b', In b bs -> In b' bs -> yes b * no b' == yes b' * no b) ->
  exists r, calculate_pstd_roc_auc data columns = Ok (Some r) /\ r == 1 # 2.
Proof. exact C26_no_skill_area_proof. Qed.
Print Assumptions C26_no_skill_area.

(** Exchanging the event with its complement reflects the area at one half (up to rounding). *)
Theorem C26_complement_area : forall data columns bs data' columns' r r',
  ProbabilityTable data columns bs -> Counts bs -> 0 < events bs -> 0 < nonevents bs ->
  ProbabilityTable data' columns' (map exchanged bs) ->
  calculate_pstd_roc_auc data columns = Ok (Some r) ->
  calculate_pstd_roc_auc data' columns' = Ok (Some r') ->
  Nearest 7 (discrimination bs) r /\ Nearest 7 (1 - discrimination bs) r'.
Proof. exact C26_complement_area_proof. Qed.
Print Assumptions C26_complement_area.

(** Without any event, or without any non-event, an exception escapes. *)
Theorem C26_one_sided_raises : forall data columns bs,
  ProbabilityTable data columns bs -> Counts bs -> 0 < all_cases bs ->
  (events bs == 0 \/ nonevents bs == 0) ->
  exists e, calculate_pstd_roc_auc data columns = Err e.
Proof. exact C26_one_sided_raises_proof. Qed.
Print Assumptions C26_one_sided_raises.

(** Finding: without any case at all the area is reported as one half instead of undefined. *)
Theorem C26_no_cases_undefined_refuted : forall data columns bs,
  ProbabilityTable data columns bs -> Counts bs -> all_cases bs == 0 ->
  exists r, calculate_pstd_roc_auc data columns = Ok (Some r) /\ r == 1 # 2.
Proof. exact C26_no_cases_undefined_refuted_proof. Qed.
Print Assumptions C26_no_cases_undefined_refuted.

(** Two lines and two bins; pooled: 1 event and 9 non-events at 0.2, 6 events and 2 non-events at 0.8. *)
Example C26_case :
  let bs := [Bin (1 # 5) 1 9; Bin (4 # 5) 6 2] in
  let data := [pct_line (1 # 5) 1 4 (4 # 5) 2 1; pct_line (1 # 5) 0 5 (4 # 5) 4 1] in
  ProbabilityTable data pct_columns bs /\ Counts bs /\ 0 < events bs /\ 0 < nonevents bs /\
  discrimination bs == (1 * 9 / 2 + 6 * 9 + 6 * 2 / 2) / (7 * 11) /\
  calculate_pstd_roc_auc data pct_columns = Ok (Some (8376623 # 10000000)).
Proof. exact C26_case_proof. Qed.

(** ** C27 *)

(** Base rate, reliability and uncertainty are the textbook quantities of the pooled bins, rounded;
    the first lies in [0,1], the second is not negative, the third lies in [0,1/4]. *)
Theorem C27_components : forall data columns bs,
  ProbabilityTable data columns bs -> Counts bs -> 0 < all_cases bs ->
  exists b r u,
    calculate_pstd_baser data columns = Ok (Some b) /\ Nearest 7 (base_rate bs) b /\ 0 <= b <= 1 /\
    calculate_pstd_reliability data columns = Ok (Some r) /\ Nearest 7 (reliability bs) r /\ 0 <= r /\
    calculate_pstd_uncertainty data columns = Ok (Some u) /\
    Nearest 7 (base_rate bs * (1 - base_rate bs)) u /\ 0 <= u <= 1 # 4.
Proof. exact C27_components_proof. Qed.
Print Assumptions C27_components.

(** When every probability used equals its observed frequency the reliability is zero; when one of
    them is far enough off to be visible in the published digits it is positive. *)
Theorem C27_calibrated : forall data columns bs,
  ProbabilityTable data columns bs -> Counts bs -> 0 < all_cases bs ->
  exists r, calculate_pstd_reliability data columns = Ok (Some r) /\
    ((forall b, In b bs -> 0 < cases b -> prob b == frequency b) -> r == 0) /\
    (forall b, In b bs -> half_unit 7 * all_cases bs < cases b * ((prob b - frequency b) * (prob b - frequency b)) ->
       0 < r).
Proof. exact C27_calibrated_proof. Qed.
Print Assumptions C27_calibrated.

(** The three components, computed from the table, combine to the Brier score: reliability minus
    resolution plus uncertainty is the mean squared error of the binned probabilities, less the
    square of the difference between the reference [o] used in the resolution and the base rate. *)
Theorem C27_brier_identity : forall data columns bs o,
  ProbabilityTable data columns bs -> Counts bs -> 0 < all_cases bs ->
  exists df,
    calc_common_stats data columns = Ok df /\
    forall t, t == all_cases bs -> exists rel res,
    calc_reliability t df = Ok (Some rel) /\ rel == reliability bs /\
    calc_resolution t df o = Ok (Some res) /\ res == resolution_about o bs /\ 0 <= res /\
    rel - res + calc_uncertainty (base_rate bs)
    == brier bs - (o - base_rate bs) * (o - base_rate bs).
Proof. exact C27_brier_identity_proof. Qed.
Print Assumptions C27_brier_identity.

(** No case at all: undefined. *)
Theorem C27_no_cases : forall data columns bs,
  ProbabilityTable data columns bs -> Counts bs -> all_cases bs == 0 ->
  calculate_pstd_baser data columns = Ok None /\
  calculate_pstd_reliability data columns = Ok None /\
  calculate_pstd_uncertainty data columns = Ok None.
Proof. exact C27_no_cases_proof. Qed.
Print Assumptions C27_no_cases.

(** Finding: the Brier score, its skill score and the resolution are never returned; for every
    proper table an AttributeError escapes. *)
Theorem C27_scores_returned_refuted : forall data columns,
  (forall r, calculate_pstd_brier data columns <> Ok (Some r) /\
             calculate_pstd_bss_smpl data columns <> Ok (Some r) /\
             calculate_pstd_resolution data columns <> Ok (Some r)) /\
  (forall bs, ProbabilityTable data columns bs -> Counts bs -> 0 < all_cases bs ->
     calculate_pstd_brier data columns = Err AttributeError /\
     calculate_pstd_bss_smpl data columns = Err AttributeError /\
     calculate_pstd_resolution data columns = Err AttributeError).
Proof. exact C27_scores_returned_refuted_proof. Qed.
Print Assumptions C27_scores_returned_refuted.

(** Finding: when the non-event counts of one bin are missing, the base rate can exceed one. *)
Theorem C27_baser_range_refuted :
  exists data columns r, calculate_pstd_baser data columns = Ok (Some r) /\ 1 < r.
Proof. exact C27_baser_range_refuted_proof. Qed.
Print Assumptions C27_baser_range_refuted.

(** The counts of a single bin (whole numbers): number of cases and observed frequency. *)
Theorem C27_single_bin : forall data columns ys ns,
  (exists i, ColumnAt columns "oy_i" i /\ map (fun r => nth_error r i) data = map (fun q => Some (CNum q)) ys) ->
  (exists i, ColumnAt columns "on_i" i /\ map (fun r => nth_error r i) data = map (fun q => Some (CNum q)) ns) ->
  (forall q, In q (ys ++ ns)%list -> exists z, q == inject_Z z) ->
  exists n c, calculate_pstd_ni data columns = Ok (Some n) /\ n == qsum ys + qsum ns /\
    calculate_pstd_calibration data columns = Ok c /\
    Published (oratio (Some (qsum ys)) (Some (qsum ys + qsum ns))) c.
Proof. exact C27_single_bin_proof. Qed.
Print Assumptions C27_single_bin.

Example C27_case :
  let bs := [Bin (1 # 5) 1 9; Bin (4 # 5) 6 2] in
  let data := [pct_line (1 # 5) 1 4 (4 # 5) 2 1; pct_line (1 # 5) 0 5 (4 # 5) 4 1] in
  ProbabilityTable data pct_columns bs /\ Counts bs /\ 0 < all_cases bs /\
  reliability bs == (10 * (1 # 100) + 8 * (1 # 400)) / 18 /\
  calculate_pstd_reliability data pct_columns = Ok (Some (66667 # 10000000)) /\
  calculate_pstd_baser data pct_columns = Ok (Some (3888889 # 10000000)) /\
  calculate_pstd_brier data pct_columns = Err AttributeError.
Proof. exact C27_case_proof. Qed.
