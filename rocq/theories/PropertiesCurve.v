(** Derived curves of aggregated statistics and both axes: properties C57 to C60. *)
From Verif Require Import PyBase ColumnModel BaseSpec EventSpec UtilSpec BootModel DriveModel DriveSpec CurveProofs.
From Coq Require Import Ascii List.
Open Scope string_scope.

(** C57: with derived curves and without bootstrap the output has the rows of all plain points, followed by
    the rows of every derived curve: one for each combination of its fields.  If the words of the two titles,
    together with the fields of the derived point, name exactly one plain point each, then the value is the
    difference, ratio, skill score or first value of the values in the output rows of these points, to five
    decimals. *)
Theorem C57_rows : forall e line_type groups columns data rq fields statistic known statistic' known' out,
  Rectangular data columns -> data <> [] -> Fields rq fields -> Plain rq fields -> DerivedRequest rq ->
  NoDup (map fst groups) -> KeepsRows e ->
  proceed_with_axis e true line_type groups columns data rq statistic known = Ok (statistic', known', out) ->
  exists plain derived, out = (plain ++ concat derived)%list /\
    Forall2 (RowOfPoint e true columns data rq fields) (combinations (map snd fields)) plain /\
    DerivedRows rq fields groups plain
      (fun w1 w2 op dp p1 p2 o1 o2 r => op <> "DIFF_SIG" -> op <> "ETB" ->
         exists v, r = Results None v None /\ DerivedValue op (value (stat_of o1)) (value (stat_of o2)) v) derived.
Proof. exact C57_rows_proof. Qed.
Print Assumptions C57_rows.
Example C57_rows_case :
  Rectangular drive_data drive_columns /\ Fields curve_request drive_fields /\ Plain curve_request drive_fields /\
  DerivedRequest curve_request /\ KeepsRows sum_engine /\
  (let dp := ["DIFF(A TOTAL-B TOTAL)"; "12"; "TOTAL"] in
   OnlyPoint drive_fields (Named [] ["A"; "TOTAL"] dp) ["A"; "12"; "TOTAL"] /\
   OnlyPoint drive_fields (Named [] ["B"; "TOTAL"] dp) ["B"; "12"; "TOTAL"]) /\
  exists known, proceed_with_axis sum_engine true "ctc" [] drive_columns drive_data curve_request "None" [] =
  Ok ("total", known, map (fun x => OutRow [("model", fst (fst (fst x))); ("fcst_lead", snd (fst (fst x))); ("stat_name", "TOTAL")]
                              (Some "TMP") (Results None (Some (snd (fst x))) None) (snd x))
                   [(("A", "12"), 12, 2%nat); (("A", "24"), 3, 1%nat); (("B", "12"), 2, 2%nat); (("B", "24"), 4, 1%nat);
                    (("DIFF(A TOTAL-B TOTAL)", "12"), 10.00000, 0%nat); (("DIFF(A TOTAL-B TOTAL)", "24"), -1.00000, 0%nat)]).
Proof. exact C57_rows_case_proof. Qed.

(** C57: a run succeeds only if every point of every derived curve has a plain point named by the first title. *)
Theorem C57_named : forall e single line_type groups columns data rq fields statistic known statistic' known' out,
  Rectangular data columns -> data <> [] -> Fields rq fields -> Plain rq fields -> DerivedRequest rq ->
  NoDup (map fst groups) ->
  proceed_with_axis e single line_type groups columns data rq statistic known = Ok (statistic', known', out) ->
  Forall (fun d => exists op w1 w2 name var lists,
      DerivedSeries rq d op w1 w2 name var /\ DerivedFields rq w1 w2 name var lists /\
      forall dp, In dp (combinations lists) -> exists p, Combination fields p /\ Forall (Named groups w1 dp) p)
    (derived_series rq).
Proof. exact C57_named_proof. Qed.
Print Assumptions C57_named.
Example C57_named_case :
  proceed_with_axis sum_engine true "ctc" [] drive_columns drive_data
    (Request [("model", ["A"; "B"])] "fcst_lead" ["12"; "24"] ["TOTAL"] [["A ME"; "B ME"; "DIFF"]] ["TMP"]) "None" [] = Err AttributeError.
Proof. exact C57_named_case_proof. Qed.

(** C57 fails if several points are named: thresholds 12 and 24 and leads 12 and 24.  The difference of the
    models A and B for threshold 12 and lead 24 should be 2 - 20; the output says 4 - 10, the difference of A
    for threshold 24 and lead 24 and B for threshold 12 and lead 12. *)
Theorem C57_mixed_refuted :
  Rectangular thresh_data thresh_columns /\ Fields thresh_request thresh_fields /\ Plain thresh_request thresh_fields /\
  DerivedRequest thresh_request /\
  exists known out,
    proceed_with_axis sum_engine true "ctc" [] thresh_columns thresh_data thresh_request "None" [] = Ok ("total", known, out) /\
    let row m thresh lead v n := OutRow (combine (map fst thresh_fields) [m; thresh; lead; "TOTAL"]) None (Results None (Some v) None) n in
    In (row "A" "12" "24" 2 1%nat) out /\ In (row "B" "12" "24" 20 1%nat) out /\
    In (row "A" "24" "24" 4 1%nat) out /\ In (row "B" "12" "12" 10 1%nat) out /\
    In (row "DIFF(A 12 TOTAL-B 12 TOTAL)" "12" "24" (-6.00000) 0%nat) out.
Proof. exact C57_mixed_refuted_proof. Qed.
Print Assumptions C57_mixed_refuted.

(** C57 fails for groups of a variable that is not the last one: its rows are missing.  The name of the group is
    no value of the variable, so the last variable is taken for the variable of the operation, and no value of
    the first one is named in the title. *)
Theorem C57_groups_refuted :
  let rq := Request [("model", ["A:B"; "B"]); ("thresh", ["12"])] "fcst_lead" ["12"] ["TOTAL"] [["Group_y1_1 12 TOTAL"; "B 12 TOTAL"; "DIFF"]] [] in
  exists known out,
    proceed_with_axis sum_engine true "ctc" [("Group_y1_1", "A:B")] thresh_columns thresh_data rq "None" [] = Ok ("total", known, out) /\
    map (fun o => map snd (point_of o)) out = [["A:B"; "12"; "12"; "TOTAL"]; ["B"; "12"; "12"; "TOTAL"]].
Proof. exact C57_groups_refuted_proof. Qed.
Print Assumptions C57_groups_refuted.

(** C58: a derived curve other than SINGLE has a result only if no case occurs twice among the rows of either
    of its two points (if no named value has a colon). *)
Theorem C58_distinct : forall e single line_type groups columns data rq fields statistic known statistic' known' out,
  Rectangular data columns -> data <> [] -> Fields rq fields -> Plain rq fields -> DerivedRequest rq ->
  NoDup (map fst groups) -> KeepsCases e columns ->
  proceed_with_axis e single line_type groups columns data rq statistic known = Ok (statistic', known', out) ->
  exists plain derived, out = (plain ++ concat derived)%list /\
    Forall2 (RowOfPoint e single columns data rq fields) (combinations (map snd fields)) plain /\
    DerivedRows rq fields groups plain
      (fun w1 w2 op dp p1 p2 o1 o2 r => r <> NoResult -> op <> "SINGLE" ->
         (forall x, Named groups w1 dp x \/ Named groups w2 dp x -> ~ Has ":" x) ->
         forall p rows, p = p1 \/ p = p2 -> Selection (OfPoint columns fields (fcst_vars rq) p) data rows -> DistinctCases columns rows) derived.
Proof. exact C58_distinct_proof. Qed.
Print Assumptions C58_distinct.
Example C58_distinct_case :
  KeepsCases sum_engine drive_columns /\
  proceed_with_axis sum_engine true "ctc" [] drive_columns (drive_row "d1" 24 "A" "TMP" 3 :: drive_data) curve_request "None" [] = Err NameError.
Proof. exact C58_distinct_case_proof. Qed.

(** C58 fails for values with colons, like times of day: if such a value is named, there is no result although
    no case occurs twice. *)
Theorem C58_dates_refuted : forall e single line_type groups columns data rq fields statistic known statistic' known' out,
  Rectangular data columns -> data <> [] -> Fields rq fields -> Plain rq fields -> DerivedRequest rq ->
  NoDup (map fst groups) -> KeepsCases e columns ->
  proceed_with_axis e single line_type groups columns data rq statistic known = Ok (statistic', known', out) ->
  exists plain derived, out = (plain ++ concat derived)%list /\
    Forall2 (RowOfPoint e single columns data rq fields) (combinations (map snd fields)) plain /\
    DerivedRows rq fields groups plain
      (fun w1 w2 op dp p1 p2 o1 o2 r => op <> "SINGLE" -> (exists x, Named groups w1 dp x /\ Has ":" x) ->
         (forall rows, Selection (OfPoint columns fields (fcst_vars rq) p1) data rows -> DistinctCases columns rows) ->
         r = NoResult) derived.
Proof. exact C58_dates_refuted_proof. Qed.
Print Assumptions C58_dates_refuted.
Example C58_dates_case :
  let rq := Request [("model", ["A"; "B"])] "fcst_valid_beg" ["2012-03-03 12:00:00"] ["TOTAL"] [["A TOTAL"; "B TOTAL"; "DIFF"]] [] in
  let data := [drive_row "2012-03-03 12:00:00" 12 "A" "TMP" 5; drive_row "2012-03-03 12:00:00" 12 "B" "TMP" 3] in
  DerivedRequest rq /\ Plain rq [("model", ["A"; "B"]); ("fcst_valid_beg", ["2012-03-03 12:00:00"]); ("stat_name", ["TOTAL"])] /\
  proceed_with_axis sum_engine true "ctc" [] drive_columns data rq "None" [] = Err NameError.
Proof. exact C58_dates_case_proof. Qed.

(** C58 fails for groups: only the average number of rows of a case is checked.  Here the group A:C has three
    rows for one case and one row for the other. *)
Theorem C58_groups_refuted :
  let data := [drive_row "d1" 12 "A" "TMP" 1; drive_row "d1" 12 "A" "TMP" 1; drive_row "d1" 12 "C" "TMP" 1; drive_row "d2" 12 "A" "TMP" 1;
               drive_row "d1" 12 "B" "TMP" 1; drive_row "d2" 12 "B" "TMP" 1] in
  let rq := Request [("model", ["A:C"; "B"])] "fcst_lead" ["12"] ["TOTAL"] [["Group_y1_1 TOTAL"; "B TOTAL"; "DIFF"]] [] in
  exists known out,
    proceed_with_axis sum_engine true "ctc" [("Group_y1_1", "A:C")] drive_columns data rq "None" [] = Ok ("total", known, out) /\
    In (OutRow [("model", "DIFF(Group_y1_1 TOTAL-B TOTAL)"); ("fcst_lead", "12"); ("stat_name", "TOTAL")] None (Results None (Some 2.00000) None) 0) out.
Proof. exact C58_groups_refuted_proof. Qed.
Print Assumptions C58_groups_refuted.

(** C58 fails for spread and RMSE, which should be exempted: several rows of one case are an error as for
    other statistics. *)
Theorem C58_exempt_refuted : forall stat, In stat ["SSVAR_Spread"; "SSVAR_RMSE"] ->
  let data := map (fun m => [CStr "d1"; CNum 12; CStr stat; CStr m; CStr "TMP"; CNum 1]) ["A"; "A"; "B"; "B"] in
  let rq := Request [("model", ["A"; "B"])] "fcst_lead" ["12"] [stat] [["A " ++ stat; "B " ++ stat; "DIFF"]] [] in
  proceed_with_axis sum_engine true "ssvar" [] drive_columns data rq "None" [] = Err NameError.
Proof. exact C58_exempt_refuted_proof. Qed.
Print Assumptions C58_exempt_refuted.

(** C59: with bootstrap the result of a derived curve other than DIFF_SIG and ETB is the bootstrap of the
    prepared rows of both points, which are as many; there is no result if one of the points has none or the
    bootstrap fails with a KeyError. *)
Theorem C59_bootstrapped : forall e line_type groups columns data rq fields statistic known statistic' known' out,
  Rectangular data columns -> data <> [] -> Fields rq fields -> Plain rq fields -> DerivedRequest rq ->
  NoDup (map fst groups) -> KeepsRows e ->
  proceed_with_axis e false line_type groups columns data rq statistic known = Ok (statistic', known', out) ->
  exists plain derived, out = (plain ++ concat derived)%list /\
    Forall2 (RowOfPoint e false columns data rq fields) (combinations (map snd fields)) plain /\
    DerivedRows rq fields groups plain
      (fun w1 w2 op dp p1 p2 o1 o2 r => op <> "DIFF_SIG" -> op <> "ETB" ->
         (r = NoResult /\ (stat_of o1 = NoResult \/ stat_of o2 = NoResult)) \/
         exists a b st, Prepared e columns data rq fields p1 a /\ Prepared e columns data rq fields p2 b /\ length a = length b /\
           (In (last dp "") (list_stat rq) -> InSmallLetters (last dp "") st) /\
           ((exists d, boot_derived e st op a b = Ok (r, d)) \/ (boot_derived e st op a b = Err KeyError /\ r = NoResult))) derived.
Proof. exact C59_bootstrapped_proof. Qed.
Print Assumptions C59_bootstrapped.
Example C59_bootstrapped_case :
  exists known, proceed_with_axis sum_engine false "ctc" [] drive_columns drive_data curve_request "None" [] =
  Ok ("total", known, map (fun x => OutRow [("model", fst (fst (fst x))); ("fcst_lead", snd (fst (fst x))); ("stat_name", "TOTAL")]
                              (Some "TMP") (snd (fst x)) (snd x))
                   [(("A", "12"), Results (Some 0) (Some 12) (Some 9), 2%nat); (("A", "24"), Results (Some 0) (Some 3) (Some 9), 1%nat);
                    (("B", "12"), Results (Some 0) (Some 2) (Some 9), 2%nat); (("B", "24"), Results (Some 0) (Some 4) (Some 9), 1%nat);
                    (("DIFF(A TOTAL-B TOTAL)", "12"), Results None (Some 12) None, 0%nat); (("DIFF(A TOTAL-B TOTAL)", "24"), Results None (Some 3) None, 0%nat)]).
Proof. exact C59_bootstrapped_case_proof. Qed.

(** C59: the rows that are put side by side belong to the same cases, if no case occurs twice and both points
    have the same cases. *)
Theorem C59_pairs : forall e columns data rq fields p1 p2 a b rows1 rows2,
  KeepsCases e columns ->
  Prepared e columns data rq fields p1 a -> Prepared e columns data rq fields p2 b ->
  Selection (OfPoint columns fields (fcst_vars rq) p1) data rows1 -> Selection (OfPoint columns fields (fcst_vars rq) p2) data rows2 ->
  DistinctCases columns rows1 -> DistinctCases columns rows2 -> SameCases columns rows1 rows2 ->
  Forall2 (SameCase columns) a b.
Proof. exact C59_pairs_proof. Qed.
Print Assumptions C59_pairs.
Example C59_pairs_case :
  let rows1 := [drive_row "d2" 12 "A" "TMP" 5; drive_row "d1" 12 "A" "TMP" 7] in
  let rows2 := [drive_row "d1" 12 "B" "TMP" 1; drive_row "d2" 12 "B" "TMP" 1] in
  Prepared sum_engine drive_columns drive_data curve_request drive_fields ["A"; "12"; "TOTAL"] (rev rows1) /\
  Selection (OfPoint drive_columns drive_fields ["TMP"] ["A"; "12"; "TOTAL"]) drive_data rows1 /\
  DistinctCases drive_columns rows1 /\ DistinctCases drive_columns rows2 /\ SameCases drive_columns rows1 rows2.
Proof. exact C59_pairs_case_proof. Qed.

(** C59: without bootstrap a significance (DIFF_SIG) is one, minus one or missing, whatever the rows. *)
Theorem C59_significance : forall e line_type groups columns data rq fields statistic known statistic' known' out,
  Rectangular data columns -> data <> [] -> Fields rq fields -> Plain rq fields -> DerivedRequest rq ->
  NoDup (map fst groups) ->
  proceed_with_axis e true line_type groups columns data rq statistic known = Ok (statistic', known', out) ->
  exists plain derived, out = (plain ++ concat derived)%list /\
    Forall2 (RowOfPoint e true columns data rq fields) (combinations (map snd fields)) plain /\
    DerivedRows rq fields groups plain
      (fun w1 w2 op dp p1 p2 o1 o2 r => op = "DIFF_SIG" -> forall q, value r = Some q -> q == 1 \/ q == - (1)) derived.
Proof. exact C59_significance_proof. Qed.
Print Assumptions C59_significance.

(** C59 fails for equivalence tests (ETB): a row of the output never has a value. *)
Theorem C59_equivalence_refuted : forall e single line_type groups columns data rq fields statistic known statistic' known' out,
  Rectangular data columns -> data <> [] -> Fields rq fields -> Plain rq fields -> DerivedRequest rq ->
  NoDup (map fst groups) ->
  proceed_with_axis e single line_type groups columns data rq statistic known = Ok (statistic', known', out) ->
  exists plain derived, out = (plain ++ concat derived)%list /\
    Forall2 (RowOfPoint e single columns data rq fields) (combinations (map snd fields)) plain /\
    DerivedRows rq fields groups plain
      (fun w1 w2 op dp p1 p2 o1 o2 r => op = "ETB" -> r = NoResult) derived.
Proof. exact C59_equivalence_refuted_proof. Qed.
Print Assumptions C59_equivalence_refuted.
Example C59_other_case :
  let rq op := Request [("model", ["A"; "B"])] "fcst_lead" ["12"] ["TOTAL"] [["A TOTAL"; "B TOTAL"; op]] ["TMP"] in
  (forall op, In op ["DIFF_SIG"; "ETB"] -> DerivedRequest (rq op) /\ Fields (rq op) [("model", ["A"; "B"]); ("fcst_lead", ["12"]); ("stat_name", ["TOTAL"])]) /\
  (exists known out, proceed_with_axis sum_engine true "ctc" [] drive_columns drive_data (rq "DIFF_SIG") "None" [] = Ok ("total", known, out) /\
    nth_error out 2 = Some (OutRow [("model", "DIFF_SIG(A TOTAL-B TOTAL)"); ("fcst_lead", "12"); ("stat_name", "TOTAL")] (Some "TMP")
                              (Results None (Some 1) None) 0)) /\
  proceed_with_axis sum_engine true "ctc" [] (map (fun n => if String.eqb n "x" then "stat_value" else n) drive_columns) drive_data (rq "ETB") "None" [] = Err KeyError /\
  (exists known out, proceed_with_axis sum_engine true "ctc" [] drive_columns
      (filter (fun r => negb (existsb (fun c => match c with CStr m => String.eqb m "A" | _ => false end) r)) drive_data) (rq "ETB") "None" [] = Ok ("total", known, out) /\
    map (fun o => value (stat_of o)) out = [None; Some 2; None]).
Proof. exact C59_other_case_proof. Qed.

(** C60: the output has the rows of the first axis and then those of the second. *)
Theorem C60_axes : forall e single line_type columns data rq1 rq2 fields1 fields2 out,
  Rectangular data columns -> data <> [] -> series_val rq2 <> [] ->
  Fields rq1 fields1 -> Plain rq1 fields1 -> derived_series rq1 = [] ->
  Fields rq2 fields2 -> Plain rq2 fields2 -> derived_series rq2 = [] ->
  calculate_stats e single line_type columns data rq1 rq2 = Ok out ->
  exists out1 out2, out = (out1 ++ out2)%list /\
    Forall2 (RowOfPoint e single columns data rq1 fields1) (combinations (map snd fields1)) out1 /\
    Forall2 (RowOfPoint e single columns data rq2 fields2) (combinations (map snd fields2)) out2.
Proof. exact C60_axes_proof. Qed.
Print Assumptions C60_axes.
Example C60_axes_case :
  let rq2 := Request [("model", ["B"])] "fcst_lead" ["12"] ["NEG"] [] ["TMP"] in
  let fields2 := [("model", ["B"]); ("fcst_lead", ["12"]); ("stat_name", ["NEG"])] in
  Fields rq2 fields2 /\ Plain rq2 fields2 /\
  calculate_stats sum_engine true "ctc" (filter (fun n => negb (String.eqb n "stat_name")) drive_columns)
    (map (fun r => match r with t :: l :: _ :: rest => t :: l :: rest | _ => r end) drive_data) drive_request rq2 =
  Ok (map (fun x => OutRow [("model", fst (fst (fst x))); ("fcst_lead", snd (fst (fst x))); ("stat_name", if Qlt_le_dec (snd (fst x)) 0 then "NEG" else "TOTAL")]
                              (Some "TMP") (Results None (Some (snd (fst x))) None) (snd x))
                   [(("A", "12"), 12, 2%nat); (("A", "24"), 3, 1%nat); (("B", "12"), 2, 2%nat); (("B", "24"), 4, 1%nat); (("B", "12"), -(2), 2%nat)]).
Proof. exact C60_axes_case_proof. Qed.

(** C60: without series for the second axis the output has the rows of the first axis only, whatever
    statistics, independent values and derived series the second axis has. *)
Theorem C60_one_axis : forall e single line_type columns data rq1 rq2 fields1 out,
  Rectangular data columns -> data <> [] -> series_val rq2 = [] ->
  Fields rq1 fields1 -> Plain rq1 fields1 -> derived_series rq1 = [] ->
  calculate_stats e single line_type columns data rq1 rq2 = Ok out ->
  Forall2 (RowOfPoint e single columns data rq1 fields1) (combinations (map snd fields1)) out.
Proof. exact C60_one_axis_proof. Qed.
Print Assumptions C60_one_axis.

(** C60: with derived curves each axis has its plain rows and then its derived rows.  Groups of values are
    named Group_y1_1, Group_y1_2, ... for the first axis and Group_y2_1, Group_y2_2, ... for the second; the
    titles of both axes may use all names. *)
Theorem C60_derived : forall e line_type columns data rq1 rq2 fields1 fields2 out,
  Rectangular data columns -> data <> [] -> series_val rq2 <> [] -> KeepsRows e ->
  Fields rq1 fields1 -> Plain rq1 fields1 -> DerivedRequest rq1 ->
  Fields rq2 fields2 -> Plain rq2 fields2 -> DerivedRequest rq2 ->
  calculate_stats e true line_type columns data rq1 rq2 = Ok out ->
  exists plain1 derived1 plain2 derived2 groups1 groups2,
    out = ((plain1 ++ concat derived1) ++ (plain2 ++ concat derived2))%list /\
    NumberedGroups "Group_y1_" (series_val rq1) groups1 /\ NumberedGroups "Group_y2_" (series_val rq2) groups2 /\
    Forall2 (RowOfPoint e true columns data rq1 fields1) (combinations (map snd fields1)) plain1 /\
    Forall2 (RowOfPoint e true columns data rq2 fields2) (combinations (map snd fields2)) plain2 /\
    let Value (w1 w2 : list string) op (dp p1 p2 : list string) o1 o2 r := op <> "DIFF_SIG" -> op <> "ETB" ->
      exists v, r = Results None v None /\ DerivedValue op (value (stat_of o1)) (value (stat_of o2)) v in
    DerivedRows rq1 fields1 (groups1 ++ groups2) plain1 Value derived1 /\
    DerivedRows rq2 fields2 (groups1 ++ groups2) plain2 Value derived2.
Proof. exact C60_derived_proof. Qed.
Print Assumptions C60_derived.
Example C60_derived_case :
  let rq1 := Request [("model", ["A:C"; "B"])] "fcst_lead" ["12"] ["TOTAL"] [["Group_y1_1 TOTAL"; "B TOTAL"; "DIFF"]] ["TMP"] in
  let fields1 := [("model", ["A:C"; "B"]); ("fcst_lead", ["12"]); ("stat_name", ["TOTAL"])] in
  let rq2 := Request [("model", ["A"; "B"])] "fcst_lead" ["12"] ["TOTAL"] [["A TOTAL"; "B TOTAL"; "SINGLE"]] ["TMP"] in
  let fields2 := [("model", ["A"; "B"]); ("fcst_lead", ["12"]); ("stat_name", ["TOTAL"])] in
  Fields rq1 fields1 /\ Plain rq1 fields1 /\ DerivedRequest rq1 /\ Fields rq2 fields2 /\ Plain rq2 fields2 /\ DerivedRequest rq2 /\
  OnlyPoint fields1 (Named [("Group_y1_1", "A:C")] ["Group_y1_1"; "TOTAL"] ["DIFF(Group_y1_1 TOTAL-B TOTAL)"; "12"; "TOTAL"]) ["A:C"; "12"; "TOTAL"] /\
  exists out, calculate_stats sum_engine true "ctc" drive_columns
    (drive_row "d1" 12 "C" "TMP" 1 :: drive_row "d2" 12 "C" "TMP" 1 :: drive_data) rq1 rq2 = Ok out /\
    map (fun o => value (stat_of o)) out = [Some 14; Some 2; Some 12.00000; Some 12; Some 2; Some 12.00000].
Proof. exact C60_derived_case_proof. Qed.

(** C60: a table without rows gives no output. *)
Theorem C60_empty : forall e single line_type columns rq1 rq2, calculate_stats e single line_type columns [] rq1 rq2 = Ok [].
Proof. exact C60_empty_proof. Qed.
Print Assumptions C60_empty.
