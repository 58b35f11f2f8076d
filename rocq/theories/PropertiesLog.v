(** Properties C47 and C48: contingency scores with logarithms. *)
From Coq Require Import Permutation Reals Qreals.
From Verif Require Import PyBase ColumnModel BaseSpec RealSpec CtcModel CtcSpec LogModel LogSpec LogProofs.
Open Scope string_scope.
Open Scope Q_scope.

(** C47: the log odds ratio of the pooled counts; it is undefined as soon as one count is zero. *)
Theorem C47_log_odds : forall data columns h fa m c t,
  CtcTotals data columns (Some h) (Some fa) (Some m) (Some c) t ->
  exists r, calculate_lodds data columns = Ok r /\
    GivenBy (0 < h /\ 0 < fa /\ 0 < m /\ 0 < c) (log_odds h fa m c) r.
Proof. exact C47_log_odds_proof. Qed.
Print Assumptions C47_log_odds.

(** C47: the two extremal indices, from the false alarm rate and the hit rate.  The hit rate [H] enters
    as published, with 7 decimals. *)
Theorem C47_extremal : forall data columns h fa m c t H,
  CtcTotals data columns (Some h) (Some fa) (Some m) (Some c) (Some t) -> Genuine h fa m c t ->
  0 < h + m -> Nearest 7 (h / (h + m)) H ->
  (exists r, calculate_sedi data columns = Ok r /\
    GivenBy (0 < fa /\ 0 < c /\ 0 < H /\ H < 1) (sym_extremal_index (Q2R (fa / (fa + c))) (Q2R H)) r) /\
  (exists r, calculate_edi data columns = Ok r /\
    GivenBy (0 < fa /\ 0 < H /\ (0 < c \/ H < 1)) (extremal_index (Q2R (fa / (fa + c))) (Q2R H)) r).
Proof. exact C47_extremal_proof. Qed.
Print Assumptions C47_extremal.

(** C47: the two dependency scores, from the relative frequencies. *)
Theorem C47_dependency : forall data columns h fa m c t,
  CtcTotals data columns (Some h) (Some fa) (Some m) (Some c) (Some t) -> Genuine h fa m c t ->
  (exists r, calculate_seds data columns = Ok r /\
    GivenBy (0 < h /\ h < t) (sym_dependency (Q2R (h / t)) (Q2R ((h + fa) / t)) (Q2R ((h + m) / t))) r) /\
  (exists r, calculate_eds data columns = Ok r /\
    GivenBy (0 < h /\ h < t) (dependency (Q2R (h / t)) (Q2R ((h + m) / t))) r).
Proof. exact C47_dependency_proof. Qed.
Print Assumptions C47_dependency.

Example C47_case :
  CtcTotals [ctc_row 3 1 0 0; ctc_row 0 1 1 4] ctc_columns (Some 3) (Some 2) (Some 1) (Some 4) (Some 10) /\
  Genuine 3 2 1 4 10 /\ Nearest 7 (3 / (3 + 1)) (3 # 4) /\
  sym_dependency (Q2R (3 / 10)) (Q2R ((3 + 2) / 10)) (Q2R ((3 + 1) / 10)) <> 0%R.
Proof. exact C47_case_proof. Qed.

(** C47: a total that a score needs is missing: the score is undefined. *)
Theorem C47_missing : forall data columns h fa m c t W,
  CtcTotals data columns h fa m c t ->
  Forall (fun '(score, needed) => In None needed -> score data columns = Ok None)
    [ (calculate_lodds, [h; fa; m; c]); (calculate_sedi, [h; fa; m; c]); (calculate_edi, [h; fa; m; c]);
      (calculate_seds, [h; fa; m; t]); (calculate_eds, [h; m; t]);
      (fun d n => calculate_bagss d n W, [h; fa; m; t]) ].
Proof. exact C47_missing_proof. Qed.
Print Assumptions C47_missing.

Example C47_missing_case :
  CtcTotals [[CNum 3; CMiss; CNum 1; CNum 4; CNum 8]] ctc_columns (Some 3) None (Some 1) (Some 4) (Some 8).
Proof. exact C47_missing_case_proof. Qed.

(** C47: the four scores lie between -1 and 1. *)
Theorem C47_ranges : forall data columns h fa m c t,
  CtcTotals data columns (Some h) (Some fa) (Some m) (Some c) (Some t) -> Genuine h fa m c t ->
  Forall (fun score => forall r, score data columns = Ok (Some r) -> -1 <= r <= 1)
    [calculate_sedi; calculate_edi; calculate_seds; calculate_eds].
Proof. exact C47_ranges_proof. Qed.
Print Assumptions C47_ranges.

(** C47: sign of the scores.  The log odds ratio is not negative exactly when the odds ratio is at least
    one (negative: up to rounding); the extremal indices compare the published hit rate with the false
    alarm rate; the symmetric dependency score compares hits with those of random forecasts. *)
Theorem C47_signs : forall data columns h fa m c t,
  CtcTotals data columns (Some h) (Some fa) (Some m) (Some c) (Some t) -> Genuine h fa m c t ->
  (forall r, calculate_lodds data columns = Ok (Some r) ->
     (fa * m <= h * c -> 0 <= r) /\ (h * c <= fa * m -> r <= 0)) /\
  (forall H, calculate_pody data columns = Ok (Some H) ->
     Forall (fun score => forall r, score data columns = Ok (Some r) ->
         (fa / (fa + c) <= H -> 0 <= r) /\ (H <= fa / (fa + c) -> r <= 0))
       [calculate_sedi; calculate_edi]) /\
  (forall r, calculate_seds data columns = Ok (Some r) ->
     ((h + fa) * (h + m) <= h * t -> 0 <= r) /\ (h * t <= (h + fa) * (h + m) -> r <= 0)).
Proof. exact C47_signs_proof. Qed.
Print Assumptions C47_signs.

(** C47: a forecast that misses nothing: EDS is 1 whatever the number of false alarms, SEDS is 1 if there
    are none; the other three are undefined without false alarms, so for a perfect forecast too. *)
Theorem C47_no_misses : forall data columns h fa c t,
  CtcTotals data columns (Some h) (Some fa) (Some 0) (Some c) (Some t) -> Genuine h fa 0 c t ->
  0 < h -> h < t ->
  Scores data columns calculate_eds 1 /\
  (fa == 0 -> Scores data columns calculate_seds 1 /\
     calculate_lodds data columns = Ok None /\ calculate_sedi data columns = Ok None /\
     calculate_edi data columns = Ok None).
Proof. exact C47_no_misses_proof. Qed.
Print Assumptions C47_no_misses.

Example C47_no_misses_case :
  CtcTotals [ctc_row 3 5 0 2] ctc_columns (Some 3) (Some 5) (Some 0) (Some 2) (Some 10) /\ Genuine 3 5 0 2 10.
Proof. exact C47_no_misses_case_proof. Qed.

(** C47: finding more of the events, with the same false alarms, never lowers a score. *)
Theorem C47_more_hits : forall data columns data' columns' h h' fa m m' c t,
  CtcTotals data columns (Some h) (Some fa) (Some m) (Some c) (Some t) -> Genuine h fa m c t ->
  CtcTotals data' columns' (Some h') (Some fa) (Some m') (Some c) (Some t) -> Genuine h' fa m' c t ->
  h <= h' ->
  Forall (fun score => forall r r', score data columns = Ok (Some r) -> score data' columns' = Ok (Some r') -> r <= r')
    [calculate_lodds; calculate_sedi; calculate_edi; calculate_eds].
Proof. exact C47_more_hits_proof. Qed.
Print Assumptions C47_more_hits.

(** C47: fewer false alarms, with the same hits, never lower a score; EDS does not change at all. *)
Theorem C47_fewer_false_alarms : forall data columns data' columns' h fa fa' m c c' t,
  CtcTotals data columns (Some h) (Some fa) (Some m) (Some c) (Some t) -> Genuine h fa m c t ->
  CtcTotals data' columns' (Some h) (Some fa') (Some m) (Some c') (Some t) -> Genuine h fa' m c' t ->
  fa' <= fa ->
  Forall (fun score => forall r r', score data columns = Ok (Some r) -> score data' columns' = Ok (Some r') -> r <= r')
    [calculate_lodds; calculate_sedi; calculate_edi; calculate_seds] /\
  calculate_eds data columns = calculate_eds data' columns'.
Proof. exact C47_fewer_false_alarms_proof. Qed.
Print Assumptions C47_fewer_false_alarms.

Example C47_more_hits_case :
  CtcTotals [ctc_row 3 2 2 4] ctc_columns (Some 3) (Some 2) (Some 2) (Some 4) (Some 11) /\ Genuine 3 2 2 4 11 /\
  CtcTotals [ctc_row 4 2 1 4] ctc_columns (Some 4) (Some 2) (Some 1) (Some 4) (Some 11) /\ Genuine 4 2 1 4 11 /\
  CtcTotals [ctc_row 3 1 2 5] ctc_columns (Some 3) (Some 1) (Some 2) (Some 5) (Some 11) /\ Genuine 3 1 2 5 11.
Proof. exact C47_more_hits_case_proof. Qed.

(** C47: exchanging events and non-events keeps the log odds ratio; reversing the forecasts reverses its
    sign, up to one unit of the last decimal. *)
Theorem C47_symmetry : forall data columns data' columns' data'' columns'' h fa m c t t' t'' r r' r'',
  CtcTotals data columns (Some h) (Some fa) (Some m) (Some c) t ->
  CtcTotals data' columns' (Some c) (Some m) (Some fa) (Some h) t' ->
  CtcTotals data'' columns'' (Some m) (Some c) (Some h) (Some fa) t'' ->
  calculate_lodds data columns = Ok (Some r) -> calculate_lodds data' columns' = Ok (Some r') ->
  calculate_lodds data'' columns'' = Ok (Some r'') ->
  r' = r /\ - (2 * half_unit 7) <= r + r'' <= 2 * half_unit 7.
Proof. exact C47_symmetry_proof. Qed.
Print Assumptions C47_symmetry.

(** C47: the scores depend on the pooled counts only. *)
Theorem C47_same_totals : forall data data' columns columns' h fa m c t W,
  CtcTotals data columns h fa m c t -> CtcTotals data' columns' h fa m c t ->
  Forall (fun score => score data columns = score data' columns')
    [ calculate_lodds; calculate_sedi; calculate_edi; calculate_seds; calculate_eds;
      fun d n => calculate_bagss d n W ].
Proof. exact C47_same_totals_proof. Qed.
Print Assumptions C47_same_totals.

(** C47: no exception escapes, whatever the table ... *)
Theorem C47_no_exception : forall data columns W,
  Forall (fun score => exists r, score data columns = Ok r)
    [ calculate_sedi; calculate_edi; calculate_seds; calculate_eds; fun d n => calculate_bagss d n W ].
Proof. exact C47_no_exception_proof. Qed.
Print Assumptions C47_no_exception.

(** ... except from the log odds ratio, if there is text among the hits. *)
Theorem C47_lodds_text_refuted : forall data columns i r s,
  Rectangular data columns -> ColumnAt columns "fy_oy" i -> In r data -> nth_error r i = Some (CStr s) ->
  calculate_lodds data columns = Err ValueError.
Proof. exact C47_lodds_text_refuted_proof. Qed.
Print Assumptions C47_lodds_text_refuted.

Example C47_lodds_text_case :
  Rectangular [[CStr "x"; CNum 2; CNum 1; CNum 4; CNum 7]] ctc_columns /\ ColumnAt ctc_columns "fy_oy" 0.
Proof. exact C47_lodds_text_case_proof. Qed.

(** C47 fails for rare misses: with all four counts positive SEDI can still be undefined, because the
    hit rate is rounded to 1. *)
Theorem C47_sedi_defined_refuted : exists h fa m c,
  0 < h /\ 0 < fa /\ 0 < m /\ 0 < c /\
  calculate_sedi [ctc_row h fa m c] ctc_columns = Ok None.
Proof. exact C47_sedi_defined_refuted_proof. Qed.
Print Assumptions C47_sedi_defined_refuted.

(** C48: the bias-adjusted Gilbert skill score is the Gilbert skill score of the adjusted hits; the
    adjusted misses are determined by their equation. *)
Theorem C48_adjusted : forall data columns h fa m c t W,
  LambertW W ->
  CtcTotals data columns (Some h) (Some fa) (Some m) (Some c) (Some t) -> Genuine h fa m c t ->
  0 < h -> 0 < m -> 0 < fa ->
  let events := Q2R (h + m) in
  exists misses r,
    AdjustedMisses events (Q2R m) (Q2R fa) misses /\
    (forall misses', AdjustedMisses events (Q2R m) (Q2R fa) misses' -> misses' = misses) /\
    calculate_bagss data columns W = Ok (Some r) /\
    NearestR 7 (unbiased_gss (events - misses) misses (events * events / Q2R t)) r /\
    -1 <= r <= 1.
Proof. exact C48_adjusted_proof. Qed.
Print Assumptions C48_adjusted.

Example C48_case : (exists W, LambertW W) /\
  CtcTotals [ctc_row 3 2 1 4] ctc_columns (Some 3) (Some 2) (Some 1) (Some 4) (Some 10) /\ Genuine 3 2 1 4 10.
Proof. exact C48_case_proof. Qed.

(** C48: without bias it is the Gilbert skill score itself. *)
Theorem C48_unbiased : forall data columns h fa m c t W,
  LambertW W ->
  CtcTotals data columns (Some h) (Some fa) (Some m) (Some c) (Some t) -> Genuine h fa m c t ->
  0 < h -> 0 < m -> fa == m ->
  calculate_bagss data columns W = calculate_gss data columns.
Proof. exact C48_unbiased_proof. Qed.
Print Assumptions C48_unbiased.

Example C48_unbiased_case :
  CtcTotals [ctc_row 3 1 1 4] ctc_columns (Some 3) (Some 1) (Some 1) (Some 4) (Some 9) /\ Genuine 3 1 1 4 9.
Proof. exact C48_unbiased_case_proof. Qed.

(** C48: a forecast that is too frequent loses hits by the adjustment, one that is too rare gains. *)
Theorem C48_direction : forall events m fa misses,
  (0 < m < events)%R -> (0 < fa)%R -> AdjustedMisses events m fa misses ->
  (m < fa -> m < misses < fa)%R /\ (fa < m -> fa < misses < m)%R /\ (fa = m -> misses = m)%R.
Proof. exact C48_direction_proof. Qed.
Print Assumptions C48_direction.

(** C48: without hits, misses or false alarms, so for every perfect forecast, there is no score. *)
Theorem C48_undefined : forall data columns h fa m c t W,
  CtcTotals data columns (Some h) (Some fa) (Some m) (Some c) (Some t) ->
  h == 0 \/ m == 0 \/ fa == 0 \/ t == 0 ->
  calculate_bagss data columns W = Ok None.
Proof. exact C48_undefined_proof. Qed.
Print Assumptions C48_undefined.
