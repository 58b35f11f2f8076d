(** Property C41: the multi-category Heidke skill score with a fixed expected accuracy. *)
From Verif Require Import PyBase ColumnModel BaseSpec MctsModel MctsSpec MctsProofs.
From Coq Require Import Permutation.
Open Scope string_scope.
Open Scope Q_scope.

(** C41: the score of a table is that of its column totals placed at the categories of the first
    line; it is undefined if a total is. *)
Theorem C41_value : forall columns first rest n ec layout totals,
  Rectangular (first :: rest) columns ->
  Layout n layout -> LineHeader columns n ec layout first ->
  length totals = length layout ->
  (forall k t, nth_error totals k = Some t ->
     In (numbered "fi_oj_" k) columns /\
     NumericColumn (first :: rest) columns (numbered "fi_oj_" k) /\
     ColumnTotal (first :: rest) columns (numbered "fi_oj_" k) t) ->
  exists r, calculate_mcts_hss_ec (first :: rest) columns = Ok r /\
    Published (match all_defined totals with
               | Some ts => hss_ec ec (diagonal_count layout ts) (qsum ts)
               | None => None
               end) r.
Proof. exact C41_value_proof. Qed.
Print Assumptions C41_value.
Example C41_value_case :
  Rectangular mcts_ex_data mcts_ex_columns /\ Layout 2 mcts_ex_layout /\
  LineHeader mcts_ex_columns 2 (1 # 2) mcts_ex_layout (hd [] mcts_ex_data) /\
  (forall k t, nth_error mcts_ex_totals k = Some t ->
     In (numbered "fi_oj_" k) mcts_ex_columns /\
     NumericColumn mcts_ex_data mcts_ex_columns (numbered "fi_oj_" k) /\
     ColumnTotal mcts_ex_data mcts_ex_columns (numbered "fi_oj_" k) t) /\
  calculate_mcts_hss_ec mcts_ex_data mcts_ex_columns = Ok (Some (7142857 # 10000000)).
Proof. exact C41_value_case_proof. Qed.

(** C41: for lines with one layout it is the score of all cases pooled together. *)
Theorem C41_pooled : forall columns n ec layout counts data,
  Rectangular data columns -> Layout n layout -> data <> [] ->
  Forall2 (Line columns n ec layout) counts data ->
  exists r, calculate_mcts_hss_ec data columns = Ok r /\
    Published (hss_ec ec (qsum (map (diagonal_count layout) counts)) (qsum (map qsum counts))) r.
Proof. exact C41_pooled_proof. Qed.
Print Assumptions C41_pooled.
Example C41_pooled_case :
  Rectangular mcts_ex_data mcts_ex_columns /\ Layout 2 mcts_ex_layout /\
  Forall2 (Line mcts_ex_columns 2 (1 # 2) mcts_ex_layout) mcts_ex_counts mcts_ex_data.
Proof. exact C41_pooled_case_proof. Qed.

(** C41: so the order of the lines does not matter. *)
Theorem C41_order : forall columns n ec layout counts data data',
  Rectangular data columns -> Layout n layout -> data <> [] ->
  Forall2 (Line columns n ec layout) counts data -> Permutation data data' ->
  exists r r', calculate_mcts_hss_ec data columns = Ok r /\
    calculate_mcts_hss_ec data' columns = Ok r' /\ oeq r r'.
Proof. exact C41_order_proof. Qed.
Print Assumptions C41_order.

(** C41: with counts that are not negative and an expected accuracy below one the score is at most
    1 and at least -ec/(1-ec); it is 1 if all cases are on the diagonal and it is undefined exactly
    if there are no cases. *)
Theorem C41_range : forall columns n ec layout counts data,
  Rectangular data columns -> Layout n layout -> data <> [] ->
  Forall2 (Line columns n ec layout) counts data ->
  0 <= ec -> ec < 1 -> (forall l c, In l counts -> In c l -> 0 <= c) ->
  exists r, calculate_mcts_hss_ec data columns = Ok r /\
    (r = None <-> qsum (map qsum counts) == 0) /\
    (forall x, r = Some x -> x <= 1 /\ forall w, Nearest 7 (- (ec / (1 - ec))) w -> w <= x) /\
    (forall x, r = Some x -> qsum (map (diagonal_count layout) counts) == qsum (map qsum counts) -> x == 1).
Proof. exact C41_range_proof. Qed.
Print Assumptions C41_range.
Example C41_range_case :
  forall l c, In l mcts_ex_counts -> In c l -> 0 <= c.
Proof. exact C41_range_case_proof. Qed.

(** C41: lines that list the same categories in another order are not matched by category: the
    score then depends on which line comes first. *)
Theorem C41_layouts_refuted :
  exists columns n ec layout1 layout2 counts1 counts2 r1 r2 x y,
    Layout n layout1 /\ Layout n layout2 /\ Rectangular [r1; r2] columns /\
    Line columns n ec layout1 counts1 r1 /\ Line columns n ec layout2 counts2 r2 /\
    calculate_mcts_hss_ec [r1; r2] columns = Ok (Some x) /\
    calculate_mcts_hss_ec [r2; r1] columns = Ok (Some y) /\ ~ x == y.
Proof. exact C41_layouts_refuted_proof. Qed.
Print Assumptions C41_layouts_refuted.

(** C41: on every table the function returns a value or no value, or stops with an IndexError... *)
Theorem C41_errors : forall data columns,
  (exists r, calculate_mcts_hss_ec data columns = Ok r) \/
  calculate_mcts_hss_ec data columns = Err IndexError.
Proof. exact C41_errors_proof. Qed.
Print Assumptions C41_errors.

(** ... which does happen: without lines or without one of the two leading columns the documented
    "None if some of the data values are missing" is not what the caller gets. *)
Theorem C41_missing_column : forall data columns,
  data = [] \/ ~ In "n_cat" columns \/ ~ In "ec_value" columns ->
  calculate_mcts_hss_ec data columns = Err IndexError.
Proof. exact C41_missing_column_proof. Qed.
Print Assumptions C41_missing_column.
Example C41_missing_column_case :
  ~ In "ec_value" ["n_cat"].
Proof. exact C41_missing_column_case_proof. Qed.

(** Without a number for the expected accuracy in the first line there is never a score. *)
Theorem C41_no_expected : forall first rest columns i c q,
  ColumnAt columns "ec_value" i -> nth_error first i = Some c -> (forall e, c <> CNum e) ->
  calculate_mcts_hss_ec (first :: rest) columns <> Ok (Some q).
Proof. exact C41_no_expected_proof. Qed.
Print Assumptions C41_no_expected.
Example C41_no_expected_case : exists r,
  nth_error r 1 = Some CMiss /\ nth_error mcts_ex_columns 1 = Some "ec_value" /\
  calculate_mcts_hss_ec [r] mcts_ex_columns = Ok None.
Proof. exact C41_no_expected_case_proof. Qed.
