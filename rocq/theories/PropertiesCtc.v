(** Properties C04-C08: contingency-table statistics. *)
From Coq Require Import Permutation.
From Verif Require Import PyBase ColumnModel BaseSpec BaseProofs CtcModel CtcSpec CtcProofs CtcProofs2.

(** C04: every score is the published (7 decimals, undefined iff the textbook value is
    undefined) textbook value of the pooled counts. *)
Theorem C04_ctc_textbook : forall data columns h fa m c t,
  CtcTotals data columns h fa m c t ->
  Forall (fun '(score, textbook) =>
            exists r, score data columns = Ok r /\ Published (textbook h fa m c t) r)
    [ (calculate_acc, tb_acc); (calculate_fbias, tb_fbias); (calculate_fmean, tb_fmean);
      (calculate_pody, tb_pody); (calculate_pofd, tb_pofd); (calculate_podn, tb_podn);
      (calculate_far, tb_far); (calculate_csi, tb_csi); (calculate_gss, tb_gss);
      (calculate_hss, tb_hss); (calculate_orss, tb_orss) ].
Proof. exact ctc_textbook. Qed.
Print Assumptions C04_ctc_textbook.

(** C04: base rate, when every cell is a number. *)
Theorem C04_baser_textbook : forall data columns hs ms ts,
  AllNumbers data columns "fy_oy" hs -> AllNumbers data columns "fn_oy" ms ->
  AllNumbers data columns "total" ts ->
  exists r, calculate_baser data columns = Ok r /\
    Published (oratio (Some (qsum hs + qsum ms)) (Some (qsum ts))) r.
Proof. exact baser_value. Qed.
Print Assumptions C04_baser_textbook.

(** C04: unlike every other score the base rate becomes undefined as soon as one
    cell is missing. *)
Theorem C04_baser_missing_cell : forall data columns i r,
  In "fn_oy"%string columns -> In "total"%string columns -> Rectangular data columns ->
  ColumnAt columns "fy_oy" i -> In r data -> nth_error r i = Some CMiss ->
  calculate_baser data columns = Ok None.
Proof. exact baser_missing_cell. Qed.
Print Assumptions C04_baser_missing_cell.

(** The totals hypothesis is met by a table with a missing cell. *)
Example C04_case :
  let data := [ctc_row 10 2 3 85; [CNum 5; CMiss; CNum 1; CNum 4; CNum 10]] in
  CtcTotals data ctc_columns (Some 15) (Some 2) (Some 4) (Some 89) (Some 110) /\
  calculate_pody data ctc_columns = Ok (Some (7894737 # 10000000)).
Proof. exact ctc_case. Qed.

(** C05: ranges of the scores. *)
Theorem C05_ctc_ranges : forall data columns h fa m c t,
  CtcTotals data columns (Some h) (Some fa) (Some m) (Some c) (Some t) ->
  Genuine h fa m c t ->
  Forall (fun '(score, lo, hi) =>
            forall r, score data columns = Ok (Some r) -> lo <= r <= hi)
    [ (calculate_acc, 0, 1); (calculate_fmean, 0, 1); (calculate_pody, 0, 1);
      (calculate_pofd, 0, 1); (calculate_podn, 0, 1); (calculate_far, 0, 1);
      (calculate_csi, 0, 1); (calculate_hk, -1, 1); (calculate_hss, -1, 1);
      (calculate_orss, -1, 1); (calculate_gss, - (3333333 # 10000000), 1) ].
Proof. exact ctc_ranges. Qed.
Print Assumptions C05_ctc_ranges.

Theorem C05_fbias_odds_nonnegative : forall data columns h fa m c t,
  CtcTotals data columns (Some h) (Some fa) (Some m) (Some c) (Some t) ->
  Genuine h fa m c t ->
  Forall (fun score => forall r, score data columns = Ok (Some r) -> 0 <= r)
    [calculate_fbias; calculate_odds].
Proof. exact ctc_nonneg. Qed.
Print Assumptions C05_fbias_odds_nonnegative.

Theorem C05_csi_le_pody : forall data columns h fa m c t,
  CtcTotals data columns (Some h) (Some fa) (Some m) (Some c) (Some t) ->
  Genuine h fa m c t -> forall r r',
  calculate_csi data columns = Ok (Some r) -> calculate_pody data columns = Ok (Some r') -> r <= r'.
Proof. exact csi_le_pody. Qed.
Print Assumptions C05_csi_le_pody.

Theorem C05_baser_range : forall data columns hs ms ts r,
  AllNumbers data columns "fy_oy" hs -> AllNumbers data columns "fn_oy" ms ->
  AllNumbers data columns "total" ts ->
  0 <= qsum hs + qsum ms <= qsum ts ->
  calculate_baser data columns = Ok (Some r) -> 0 <= r <= 1.
Proof. exact baser_range. Qed.
Print Assumptions C05_baser_range.

(** The lower bound of GSS is attained. *)
Example C05_case :
  let data := [ctc_row 0 5 5 0] in
  CtcTotals data ctc_columns (Some 0) (Some 5) (Some 5) (Some 0) (Some 10) /\
  Genuine 0 5 5 0 10 /\ calculate_gss data ctc_columns = Ok (Some (-3333333 # 10000000)).
Proof. exact gss_case. Qed.

(** C06: scores depend on the pooled counts only; in particular not on the row order ... *)
Theorem C06_row_order : forall data data' columns h fa m c t,
  CtcTotals data columns h fa m c t -> Permutation data data' ->
  Forall (fun score => score data columns = score data' columns)
    [ calculate_acc; calculate_fbias; calculate_fmean; calculate_pody; calculate_pofd;
      calculate_podn; calculate_far; calculate_csi; calculate_gss; calculate_hk;
      calculate_hss; calculate_odds; calculate_orss ].
Proof. exact ctc_row_order. Qed.
Print Assumptions C06_row_order.

(** ... nor on how the cases are distributed over rows or on the order of the columns. *)
Theorem C06_same_totals : forall data data' columns columns' h fa m c t,
  CtcTotals data columns h fa m c t -> CtcTotals data' columns' h fa m c t ->
  Forall (fun score => score data columns = score data' columns')
    [ calculate_acc; calculate_fbias; calculate_fmean; calculate_pody; calculate_pofd;
      calculate_podn; calculate_far; calculate_csi; calculate_gss; calculate_hk;
      calculate_hss; calculate_odds; calculate_orss ].
Proof. exact ctc_same_totals. Qed.
Print Assumptions C06_same_totals.

(** Merging two rows into the row of summed counts keeps the totals. *)
Theorem C06_merge_rows : forall h fa m c h' fa' m' c' rest,
  Forall (fun score =>
            score (ctc_row h fa m c :: ctc_row h' fa' m' c' :: rest) ctc_columns
            = score (ctc_row (h + h') (fa + fa') (m + m') (c + c') :: rest) ctc_columns)
    [ calculate_acc; calculate_fbias; calculate_fmean; calculate_pody; calculate_pofd;
      calculate_podn; calculate_far; calculate_csi; calculate_gss; calculate_hk;
      calculate_hss; calculate_odds; calculate_orss ].
Proof. exact ctc_merge_rows. Qed.
Print Assumptions C06_merge_rows.

Example C06_case : Permutation [ctc_row 1 2 3 4; ctc_row 5 6 7 8] [ctc_row 5 6 7 8; ctc_row 1 2 3 4] /\
  calculate_hss [ctc_row 1 2 3 4; ctc_row 5 6 7 8] ctc_columns
  = calculate_hss [ctc_row 6 8 10 12] ctc_columns.
Proof. split; [apply perm_swap|vm_compute; reflexivity]. Qed.

(** C07: perfect forecast. *)
Theorem C07_perfect : forall data columns h c t,
  CtcTotals data columns (Some h) (Some 0) (Some 0) (Some c) (Some t) ->
  0 < h -> 0 < c -> t == h + c ->
  Scores data columns calculate_pody 1 /\ Scores data columns calculate_podn 1 /\
  Scores data columns calculate_csi 1 /\ Scores data columns calculate_gss 1 /\
  Scores data columns calculate_hss 1 /\ Scores data columns calculate_hk 1 /\
  Scores data columns calculate_orss 1 /\ Scores data columns calculate_acc 1 /\
  Scores data columns calculate_fbias 1 /\
  Scores data columns calculate_far 0 /\ Scores data columns calculate_pofd 0.
Proof. exact perfect_scores. Qed.
Print Assumptions C07_perfect.

(** C07: forecast that is always wrong. *)
Theorem C07_worst : forall data columns fa m t,
  CtcTotals data columns (Some 0) (Some fa) (Some m) (Some 0) (Some t) ->
  0 < fa -> 0 < m -> t == fa + m ->
  Scores data columns calculate_pody 0 /\ Scores data columns calculate_podn 0 /\
  Scores data columns calculate_csi 0 /\ Scores data columns calculate_acc 0 /\
  Scores data columns calculate_far 1 /\ Scores data columns calculate_pofd 1 /\
  Scores data columns calculate_hk (-1) /\ Scores data columns calculate_orss (-1).
Proof. exact worst_scores. Qed.
Print Assumptions C07_worst.

(** C07: PODN + POFD = 1 up to one unit of the last published decimal. *)
Theorem C07_podn_pofd : forall data columns h fa m c t r s,
  CtcTotals data columns (Some h) (Some fa) (Some m) (Some c) (Some t) ->
  calculate_podn data columns = Ok (Some r) -> calculate_pofd data columns = Ok (Some s) ->
  1 - 2 * half_unit 7 <= r + s <= 1 + 2 * half_unit 7.
Proof. exact podn_pofd_complement. Qed.
Print Assumptions C07_podn_pofd.

Example C07_case :
  CtcTotals [ctc_row 7 0 0 3] ctc_columns (Some 7) (Some 0) (Some 0) (Some 3) (Some 10) /\
  CtcTotals [ctc_row 0 7 3 0] ctc_columns (Some 0) (Some 7) (Some 3) (Some 0) (Some 10).
Proof. exact extreme_case. Qed.

(** C08: no exception escapes, whatever the table. *)
Theorem C08_no_exception : forall data columns,
  Forall (fun score => exists r, score data columns = Ok r)
    [ calculate_acc; calculate_fbias; calculate_fmean; calculate_pody; calculate_pofd;
      calculate_podn; calculate_far; calculate_csi; calculate_gss; calculate_hk;
      calculate_hss; calculate_odds; calculate_odds1; calculate_orss ].
Proof. exact ctc_no_exception. Qed.
Print Assumptions C08_no_exception.

(** C08: the plain totals raise TypeError exactly when the column total is undefined,
    and otherwise return the published total. *)
Theorem C08_totals_raise : forall data columns,
  Rectangular data columns ->
  Forall (fun '(stat, name) =>
            NumericColumn data columns name ->
            (stat data columns = Err TypeError <-> ColumnTotal data columns name None) /\
            (forall o, ColumnTotal data columns name (Some o) ->
               exists r, stat data columns = Ok (Some r) /\ Nearest 7 o r))
    [ (calculate_ctc_total, "total"); (calculate_cts_total, "total");
      (calculate_ctc_fn_on, "fn_on"); (calculate_ctc_fn_oy, "fn_oy");
      (calculate_ctc_fy_on, "fy_on"); (calculate_ctc_fy_oy, "fy_oy") ]%string.
Proof. exact ctc_totals_raise. Qed.
Print Assumptions C08_totals_raise.

(** C08: likewise for the marginal totals. *)
Theorem C08_marginals_raise : forall data columns,
  Rectangular data columns ->
  Forall (fun '(stat, a, b) =>
            NumericColumn data columns a -> NumericColumn data columns b ->
            (stat data columns = Err TypeError <->
               ColumnTotal data columns a None \/ ColumnTotal data columns b None) /\
            (forall x y, ColumnTotal data columns a (Some x) -> ColumnTotal data columns b (Some y) ->
               exists r, stat data columns = Ok (Some r) /\ Nearest 7 (x + y) r))
    [ (calculate_ctc_oy, "fy_oy", "fn_oy"); (calculate_ctc_on, "fy_on", "fn_on");
      (calculate_ctc_fy, "fy_on", "fy_oy"); (calculate_ctc_fn, "fn_on", "fn_oy") ]%string.
Proof. exact ctc_marginals_raise. Qed.
Print Assumptions C08_marginals_raise.

(** C08: the base rate raises nothing when its columns exist ... *)
Theorem C08_baser_no_exception : forall data columns,
  Rectangular data columns ->
  (forall name, In name ["fy_oy"; "fn_oy"; "total"]%string -> In name columns) ->
  exists r, calculate_baser data columns = Ok r.
Proof. exact baser_no_exception. Qed.
Print Assumptions C08_baser_no_exception.

(** ... but it lets IndexError escape when its first column is absent. *)
Theorem C08_baser_raises : forall data columns,
  ~ In "fy_oy"%string columns -> calculate_baser data columns = Err IndexError.
Proof. exact baser_raises. Qed.
Print Assumptions C08_baser_raises.

(** Finding: "the odds ratio is defined whenever all four counts are positive" is false,
    because the rates are rounded before they are used as divisors. *)
Theorem C08_odds_defined_refuted :
  exists h fa m c, 0 < h /\ 0 < fa /\ 0 < m /\ 0 < c /\
    calculate_odds [ctc_row h fa m c] ctc_columns = Ok None.
Proof. exact odds_refuted. Qed.
Print Assumptions C08_odds_defined_refuted.

(** The two odds-ratio routines agree whenever the second one yields a number. *)
Theorem C08_odds_agree : forall data columns r,
  calculate_odds1 data columns = Ok (Some r) -> calculate_odds data columns = Ok (Some r).
Proof. exact odds1_odds. Qed.
Print Assumptions C08_odds_agree.

Example C08_case :
  calculate_ctc_total [] ctc_columns = Err TypeError /\
  calculate_ctc_total [ctc_row 1 2 3 4] ctc_columns = Ok (Some (100000000 # 10000000)) /\
  calculate_odds1 [ctc_row 3 1 1 3] ctc_columns = Ok (Some (90000000 # 10000000)).
Proof. vm_compute. repeat split; reflexivity. Qed.
