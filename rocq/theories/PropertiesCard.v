(** Scorecards: property C62. *)
From Coq Require Import Reals Qreals Permutation.
From Verif Require Import PyBase ColumnModel BaseSpec EventSpec UtilSpec BootModel ScoreModel DriveModel DriveSpec CardModel CardSpec CardProofs.
From Coq Require Import List.
Open Scope string_scope.

(** C62: for every derived series and every combination of its fields, with exactly one point named by each
    title: if there is no row for one of the points there is no output; otherwise there is one row with the first
    row of the first point, the name of the curve, the named lead and the score of the values in order of time. *)
Theorem C62_rows : forall cdf emc ndays columns data rq fields output,
  Rectangular data columns -> NoDup columns -> CardFields rq fields -> Plain rq fields -> DerivedRequest rq ->
  calculate_scorecard cdf emc ndays columns data rq = Ok output ->
  CardRows columns data rq fields (fun op w1 name rows1 rows2 o =>
    (rows1 = [] \/ rows2 = [] -> o = []) /\
    (rows1 <> [] -> rows2 <> [] -> exists first rest sorted1 sorted2 v1 v2 score row,
       rows1 = first :: rest /\ InOrder columns rows1 sorted1 /\ InOrder columns rows2 sorted2 /\
       ValuesOf columns sorted1 v1 /\ ValuesOf columns sorted2 v2 /\
       CardValue cdf emc ndays (list_stat rq) op v1 v2 score /\
       o = [row] /\ CardRow columns (series_val rq) w1 name first score row)) output.
Proof. exact C62_rows_proof. Qed.
Print Assumptions C62_rows.
Example C62_rows_case :
  Rectangular card_data card_columns /\ NoDup card_columns /\ CardFields card_request card_fields /\ Plain card_request card_fields /\
  DerivedRequest card_request /\
  (let dp := ["DIFF(A 12 RMSE-B 12 RMSE)"; "12"; "RMSE"] in
   OnlyPoint card_fields (Named [] ["A"; "12"; "RMSE"] dp) ["A"; "12"; "RMSE"] /\
   OnlyPoint card_fields (Named [] ["B"; "12"; "RMSE"] dp) ["B"; "12"; "RMSE"]) /\
  exists m, m == 5 # 2 /\
    forall cdf emc ndays, calculate_scorecard cdf emc ndays card_columns card_data card_request =
      Ok [[("model", Given "DIFF(A 12 RMSE-B 12 RMSE)"); ("fcst_lead", Given "12"); ("stat_name", Kept (CStr "RMSE"));
           ("vx_mask", Kept (CStr "NHX")); ("stat_value", Score (OutNum (Q2R m)))]].
Proof. exact C62_rows_case_proof. Qed.

(** C62: the first series has no case twice (except for the operation SINGLE). *)
Theorem C62_checked : forall cdf emc ndays columns data rq fields output,
  Rectangular data columns -> NoDup columns -> CardFields rq fields -> Plain rq fields -> DerivedRequest rq ->
  calculate_scorecard cdf emc ndays columns data rq = Ok output ->
  CardRows columns data rq fields (fun op w1 name rows1 rows2 o => op <> "SINGLE" -> o <> [] -> DistinctCases columns rows1) output.
Proof. exact C62_checked_proof. Qed.
Print Assumptions C62_checked.

(** C62: if the second series has no case twice either, and both have the same cases, the score of a difference
    is the mean over the cases of the difference of their values. *)
Theorem C62_difference : forall cdf emc ndays columns data rq fields output,
  Rectangular data columns -> NoDup columns -> CardFields rq fields -> Plain rq fields -> DerivedRequest rq ->
  calculate_scorecard cdf emc ndays columns data rq = Ok output ->
  CardRows columns data rq fields (fun op w1 name rows1 rows2 o => op = "DIFF" -> rows1 <> [] -> rows2 <> [] ->
    DistinctCases columns rows2 -> SameCases columns rows1 rows2 ->
    (forall r, In r (rows1 ++ rows2)%list -> ~ CellOf columns r "stat_value" CMiss) ->
    exists pairs diffs m row, Permutation (map fst pairs) rows1 /\ Permutation (map snd pairs) rows2 /\
      Forall2 (fun p d => SameCase columns (fst p) (snd p) /\
                 exists x y, CellOf columns (fst p) "stat_value" (CNum x) /\ CellOf columns (snd p) "stat_value" (CNum y) /\ d = x - y)
        pairs diffs /\
      m == mean diffs /\ o = [row] /\ In ("stat_value", Score (OutNum (Q2R m))) row) output.
Proof. exact C62_difference_proof. Qed.
Print Assumptions C62_difference.

(** C62 fails for series with different cases: the second series is not checked, and values of different times,
    or of a time that occurs twice, are subtracted from each other. *)
Theorem C62_cases_refuted :
  exists o, forall cdf emc ndays,
  let run t1 t2 := calculate_scorecard cdf emc ndays card_columns
    [card_line "A" 12 "d1" 3; card_line "A" 12 "d2" 5; card_line "B" 12 t1 1; card_line "B" 12 t2 2] card_request in
  run "d1" "d2" = Ok [o] /\ run "d7" "d8" = Ok [o] /\ run "d2" "d2" = Ok [o].
Proof. exact C62_cases_refuted_proof. Qed.
Print Assumptions C62_cases_refuted.

(** C62 fails for requests with several statistics: the significance of each is judged as that of the first.
    The larger mean absolute error is the better one alone (C31) and the worse one after a root mean square error. *)
Theorem C62_statistics_refuted :
  exists v1 v2, calculate_diff_sig_emc 2 "MAE" v1 v2 = Ok (Some 1) /\
    (let run stats cdf := calculate_scorecard cdf true 2 card_columns
       (map (fun tx => [CStr "A"; CNum 12; CStr (fst tx); CStr "MAE"; CStr "NHX"; match snd tx with Some x => CNum x | None => CMiss end]) (combine ["d1"; "d2"] v1) ++
        map (fun tx => [CStr "B"; CNum 12; CStr (fst tx); CStr "MAE"; CStr "NHX"; match snd tx with Some x => CNum x | None => CMiss end]) (combine ["d1"; "d2"] v2))%list
       (Request [("model", ["A"; "B"]); ("fcst_lead", ["12"])] "" [] stats [["A 12 MAE"; "B 12 MAE"; "DIFF_SIG"]] []) in
     let row x := [("model", Given "DIFF_SIG(A 12 MAE-B 12 MAE)"); ("fcst_lead", Given "12"); ("stat_name", Kept (CStr "MAE"));
                   ("vx_mask", Kept (CStr "NHX")); ("stat_value", Score (OutNum (Q2R x)))] in
     forall cdf, run ["MAE"] cdf = Ok [row 1] /\ run ["RMSE"; "MAE"] cdf = Ok [row (-1)]).
Proof. exact C62_statistics_refuted_proof. Qed.
Print Assumptions C62_statistics_refuted.

(** C62: exceptions.  A table without rows; a difference of series of different length (no output at all);
    requests without leads among the series variables. *)
Theorem C62_exceptions : forall cdf emc ndays columns data rq fields,
  calculate_scorecard cdf emc ndays columns [] rq = Err ValueError /\
  (Rectangular data columns -> NoDup columns -> CardFields rq fields -> Plain rq fields -> DerivedRequest rq ->
   forall output, calculate_scorecard cdf emc ndays columns data rq = Ok output ->
     (output <> [] -> In "fcst_lead" (map fst (series_val rq)) /\ In "fcst_lead" columns /\ In "stat_value" columns) /\
     CardRows columns data rq fields (fun op w1 name rows1 rows2 o => op = "DIFF" -> o <> [] -> length rows1 = length rows2) output).
Proof. exact C62_exceptions_proof. Qed.
Print Assumptions C62_exceptions.
Example C62_exceptions_case :
  (forall cdf emc ndays, calculate_scorecard cdf emc ndays card_columns (card_line "B" 24 "d1" 1 :: card_line "B" 24 "d2" 4 :: card_data) card_request = Err TypeError) /\
  (forall cdf emc ndays, calculate_scorecard cdf emc ndays card_columns (card_line "A" 12 "d1" 1 :: card_data) card_request = Err NameError).
Proof. exact C62_exceptions_case_proof. Qed.

(** C62: without derived series there is no output. *)
Theorem C62_plain : forall cdf emc ndays columns data rq fields output,
  CardFields rq fields -> Plain rq fields -> derived_series rq = [] ->
  calculate_scorecard cdf emc ndays columns data rq = Ok output -> output = [].
Proof. exact C62_plain_proof. Qed.
Print Assumptions C62_plain.
