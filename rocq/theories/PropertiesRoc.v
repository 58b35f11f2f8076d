(** C49: sorting by thresholds.  C50: the ROC table. *)
From Coq Require Import Sorted Permutation.
From Verif Require Import PyBase ColumnModel BaseSpec CtcSpec EventSpec RocModel RocSpec RocProofs.
From Coq Require Import List.
Open Scope string_scope.

(** C49: thresholds with numbers.  The frame gets the columns of ranks and values; the sorted rows are
    the rows of the frame, ordered by value and then by operator, and rows of the same threshold keep
    their order. *)
Theorem C49_numbers : forall float_of columns data name ascending,
  Rectangular data columns -> In name columns -> ~ In "op_wts" columns -> ~ In "thresh_values" columns ->
  data <> [] -> (forall r, In r data -> exists v k, RowNumber float_of columns name r v k) ->
  exists keyed sorted,
    sort_by_thresh float_of columns data name ascending
      = Ok ((columns ++ ["op_wts"; "thresh_values"])%list, keyed, sorted) /\
    Forall2 (fun r r' => exists v k, RowNumber float_of columns name r v k /\ r' = (r ++ [CNum k; CNum v])%list) data keyed /\
    Permutation keyed sorted /\
    StronglySorted (Directed ascending (fun a b => forall v k v' k',
      RowNumber float_of columns name a v k -> RowNumber float_of columns name b v' k' -> NumbersBefore v k v' k')) sorted /\
    (forall v k rows, let same r := exists v', RowNumber float_of columns name r v' k /\ v' == v in
       Selection same keyed rows -> Selection same sorted rows).
Proof. exact C49_numbers_proof. Qed.
Print Assumptions C49_numbers.

Example C49_numbers_case :
  let data := [[CStr ">=10"; CNum 1]; [CStr "<=2"; CNum 2]; [CStr "2"; CNum 3]; [CStr "<2"; CNum 4]; [CStr ">-2"; CNum 5]; [CStr "==2"; CNum 6]] in
  Rectangular data ["fcst_thresh"; "x"] /\
  (forall r, In r data -> exists v k, RowNumber read_digit ["fcst_thresh"; "x"] "fcst_thresh" r v k) /\
  exists keyed, sort_by_thresh read_digit ["fcst_thresh"; "x"] data "fcst_thresh" true = Ok
    (["fcst_thresh"; "x"; "op_wts"; "thresh_values"], keyed,
     [ [CStr ">-2"; CNum 5; CNum 5; CNum (-2)]; [CStr "<2"; CNum 4; CNum 1; CNum 2]; [CStr "<=2"; CNum 2; CNum 2; CNum 2];
       [CStr "2"; CNum 3; CNum 3; CNum 2]; [CStr "==2"; CNum 6; CNum 3; CNum 2]; [CStr ">=10"; CNum 1; CNum 4; CNum 10] ]).
Proof. exact C49_numbers_case_proof. Qed.

(** C49: thresholds with texts, the same; but not with the operator "<=". *)
Theorem C49_texts : forall float_of columns data name ascending,
  Rectangular data columns -> In name columns -> ~ In "op_wts" columns -> ~ In "thresh_values" columns ->
  data <> [] -> (forall r, In r data -> exists t k, RowText columns name r t k /\ ~ k == 2) ->
  exists keyed sorted,
    sort_by_thresh float_of columns data name ascending
      = Ok ((columns ++ ["op_wts"; "thresh_values"])%list, keyed, sorted) /\
    Forall2 (fun r r' => exists t k, RowText columns name r t k /\ r' = (r ++ [CNum k; CStr t])%list) data keyed /\
    Permutation keyed sorted /\
    StronglySorted (Directed ascending (fun a b => forall t k t' k',
      RowText columns name a t k -> RowText columns name b t' k' -> TextsBefore t k t' k')) sorted /\
    (forall t k rows, let same r := RowText columns name r t k in
       Selection same keyed rows -> Selection same sorted rows).
Proof. exact C49_texts_proof. Qed.
Print Assumptions C49_texts.

Example C49_texts_case :
  let data := [[CStr ">SFP30"]; [CStr "==SFP25"]; [CStr ">=SFP30"]] in
  (forall r, In r data -> exists t k, RowText ["fcst_thresh"] "fcst_thresh" r t k /\ ~ k == 2) /\
  exists keyed, sort_by_thresh read_digit ["fcst_thresh"] data "fcst_thresh" true = Ok
    (["fcst_thresh"; "op_wts"; "thresh_values"], keyed,
     [ [CStr "==SFP25"; CNum 3; CStr "SFP25"]; [CStr ">=SFP30"; CNum 4; CStr "SFP30"]; [CStr ">SFP30"; CNum 5; CStr "SFP30"] ]).
Proof. exact C49_texts_case_proof. Qed.

(** C49 fails for texts with "<=": the equal sign is taken for a part of the text and the operator for
    "<", so a larger threshold is sorted before a smaller one. *)
Theorem C49_less_equal_refuted : forall float_of t, PlainText t ->
  sort_by_thresh float_of ["fcst_thresh"] [[CStr ("<=" ++ t)]] "fcst_thresh" true =
    Ok (["fcst_thresh"; "op_wts"; "thresh_values"],
        [[CStr ("<=" ++ t); CNum 1; CStr ("=" ++ t)]], [[CStr ("<=" ++ t); CNum 1; CStr ("=" ++ t)]]) /\
  exists keyed sorted,
    sort_by_thresh float_of ["fcst_thresh"] [[CStr ">SFP30"]; [CStr "<=SFP50"]] "fcst_thresh" true
      = Ok (["fcst_thresh"; "op_wts"; "thresh_values"], keyed, sorted) /\
    map (fun r => nth_error r 0) sorted = [Some (CStr "<=SFP50"); Some (CStr ">SFP30")] /\
    String.compare "SFP30" "SFP50" = Lt.
Proof. exact C49_less_equal_refuted_proof. Qed.
Print Assumptions C49_less_equal_refuted.

(** C49: sorting a sorted frame again changes nothing. *)
Theorem C49_again : forall float_of columns data name ascending columns' keyed sorted,
  Rectangular data columns -> name <> "op_wts" -> name <> "thresh_values" ->
  sort_by_thresh float_of columns data name ascending = Ok (columns', keyed, sorted) ->
  sort_by_thresh float_of columns' sorted name ascending = Ok (columns', sorted, sorted).
Proof. exact C49_again_proof. Qed.
Print Assumptions C49_again.

(** C49: without rows there is an UnboundLocalError, without the column a KeyError. *)
Theorem C49_empty : forall float_of columns name ascending,
  (In name columns -> sort_by_thresh float_of columns [] name ascending = Err UnboundLocalError) /\
  (forall data, ~ In name columns -> sort_by_thresh float_of columns data name ascending = Err KeyError).
Proof. exact C49_empty_proof. Qed.
Print Assumptions C49_empty.

(** C49: numbers and texts cannot be mixed. *)
Theorem C49_mixed : forall float_of columns data name ascending,
  Rectangular data columns -> In name columns ->
  (forall r, In r data -> (exists v k, RowNumber float_of columns name r v k) \/ (exists t k, RowText columns name r t k)) ->
  (exists r v k, In r data /\ RowNumber float_of columns name r v k) ->
  (exists r t k, In r data /\ RowText columns name r t k) ->
  sort_by_thresh float_of columns data name ascending = Err ValueError.
Proof. exact C49_mixed_proof. Qed.
Print Assumptions C49_mixed.

Example C49_mixed_case :
  let data := [[CStr ">5"]; [CStr "<=SFP50"]] in
  Rectangular data ["fcst_thresh"] /\
  RowNumber read_digit ["fcst_thresh"] "fcst_thresh" [CStr ">5"] 5 5 /\ RowText ["fcst_thresh"] "fcst_thresh" [CStr "<=SFP50"] "SFP50" 2.
Proof. exact C49_mixed_case_proof. Qed.

(** C49: the first threshold that is not a text raises a TypeError (so for a column of plain numbers),
    the first one that begins like a number but is none a ValueError. *)
Theorem C49_unreadable : forall float_of columns before r rest name ascending c,
  Rectangular (before ++ r :: rest)%list columns ->
  (forall x, In x before -> exists v k, RowNumber float_of columns name x v k) ->
  CellOf columns r name c ->
  ((forall s, c <> CStr s) -> sort_by_thresh float_of columns (before ++ r :: rest)%list name ascending = Err TypeError) /\
  (forall op num k, c = CStr (op ++ num) -> In (op, k) op_ranks -> NumberText num -> float_of num = None ->
     sort_by_thresh float_of columns (before ++ r :: rest)%list name ascending = Err ValueError).
Proof. exact C49_unreadable_proof. Qed.
Print Assumptions C49_unreadable.

Example C49_unreadable_case :
  CellOf ["fcst_thresh"] [CNum 5] "fcst_thresh" (CNum 5) /\
  In (">", 5) op_ranks /\ NumberText "5mm" /\ read_digit "5mm" = None.
Proof. exact C49_unreadable_case_proof. Qed.

(** C50: the table has one row for every distinct threshold text, with the PODY and POFD of all its lines
    together, in the order of the texts as strings. *)
Theorem C50_table : forall float_of columns data ascending roc,
  Rectangular data columns ->
  calculate_ctc_roc float_of columns data ascending = Ok roc ->
  StronglySorted (Directed ascending (fun a b => String.compare a b = Lt)) (map thresh roc) /\
  (forall s, In s (map thresh roc) <-> exists r, In r data /\ CellOf columns r "fcst_thresh" (CStr s)) /\
  (forall row lines h fa m c t,
     In row roc -> Selection (fun r => CellOf columns r "fcst_thresh" (CStr (thresh row))) data lines ->
     CtcTotals lines columns h fa m c t ->
     Published (tb_pody h fa m c t) (pody row) /\ Published (tb_pofd h fa m c t) (pofd row)).
Proof. exact C50_table_proof. Qed.
Print Assumptions C50_table.

(** C50: there is a table if all thresholds are numbers, or all are texts. *)
Theorem C50_defined : forall float_of columns data ascending,
  Rectangular data columns -> In "fcst_thresh" columns -> data <> [] ->
  (forall r, In r data -> exists v k, RowNumber float_of columns "fcst_thresh" r v k) \/
  (forall r, In r data -> exists t k, RowText columns "fcst_thresh" r t k) ->
  exists roc, calculate_ctc_roc float_of columns data ascending = Ok roc.
Proof. exact C50_defined_proof. Qed.
Print Assumptions C50_defined.

Example C50_case :
  let columns := ["fcst_thresh"; "total"; "fy_oy"; "fy_on"; "fn_oy"; "fn_on"] in
  let data := [ [CStr ">=2"; CNum 8; CNum 3; CNum 1; CNum 1; CNum 3]; [CStr ">=1"; CNum 8; CNum 4; CNum 2; CNum 0; CNum 2];
                [CStr ">=2"; CNum 8; CNum 2; CNum 0; CNum 2; CNum 4] ] in
  Rectangular data columns /\
  (forall r, In r data -> exists v k, RowNumber read_digit columns "fcst_thresh" r v k) /\
  calculate_ctc_roc read_digit columns data false = Ok
    [RocRow ">=2" (Some (6250000 # 10000000)) (Some (1250000 # 10000000)); RocRow ">=1" (Some (10000000 # 10000000)) (Some (5000000 # 10000000))].
Proof. exact C50_case_proof. Qed.

(** C50 fails for thresholds with several digits or signs: the rows are not in the order of the
    thresholds, although the frame was sorted by them. *)
Theorem C50_order_refuted : forall float_of columns data roc i j,
  calculate_ctc_roc float_of columns data true = Ok roc -> Rectangular data columns ->
  nth_error (map thresh roc) i = Some ">=10" -> nth_error (map thresh roc) j = Some ">=2" -> (i < j)%nat.
Proof. exact C50_order_refuted_proof. Qed.
Print Assumptions C50_order_refuted.

Example C50_order_case : exists roc,
  calculate_ctc_roc read_digit ["fcst_thresh"] [[CStr ">=2"]; [CStr ">=10"]] true = Ok roc /\
  map thresh roc = [">=10"; ">=2"].
Proof. exact C50_order_case_proof. Qed.

(** C50: two spellings of one threshold are two rows, each with part of the lines. *)
Theorem C50_spelling_refuted : exists roc,
  calculate_ctc_roc read_digit ["fcst_thresh"] [[CStr "==2"]; [CStr "2"]; [CStr "2"]] true = Ok roc /\
  map thresh roc = ["2"; "==2"].
Proof. exact C50_spelling_refuted_proof. Qed.
Print Assumptions C50_spelling_refuted.
