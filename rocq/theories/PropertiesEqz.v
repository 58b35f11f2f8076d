(** C51: equalization of an axis.  C52: equalization of two axes.  C53, C54: the stand-alone programs. *)
From Verif Require Import PyBase ColumnModel BaseSpec EventModel EventSpec EqzModel EqzSpec EqzProofs.
From Coq Require Import List.
Open Scope string_scope.

(** C51: for every statistic, the rows of this statistic with a listed value of the last series variable
    are equalized over all series and fixed variables; the results are put one after the other. *)
Theorem C51_axis : forall show columns data indy fcst_vars series fixed kc vars before var groups values,
  Rectangular data columns -> ~ In "equalize" columns ->
  NoDup (map fst series ++ map fst fixed) -> KeyColumns columns true indy kc ->
  Variables series fixed vars -> (forall n, In n (map fst vars) -> In n columns) ->
  series = (before ++ [(var, groups)])%list -> Members groups values ->
  exists parts,
    Forall2 (fun vs part => exists sub,
        Selection (fun r => Listed columns var values r /\ OfStatistic columns vs r) data sub /\
        Equalized show columns kc vars sub part) (axis_pairs fcst_vars) parts /\
    equalize_axis_data show (map fst fixed) (map snd fixed) indy (Some (Some fcst_vars)) series (columns, data)
      = Ok ((columns, data), match axis_pairs fcst_vars with [] => None | _ => Some (columns, concat parts) end).
Proof. exact C51_axis_proof. Qed.
Print Assumptions C51_axis.

Example C51_axis_case :
  equalize_axis_data show_lead ["vx_mask"] [["NH"]] "fcst_lead" (Some (Some [("TMP", ["ME"; "RMSE"])])) [("model", ["A:B"])]
    (eqz_columns, [eqz_row "d1" "A" "NH" "ME"; eqz_row "d1" "B" "NH" "ME"; eqz_row "d2" "A" "NH" "ME";
                   eqz_row "d2" "A" "NH" "RMSE"; eqz_row "d2" "B" "NH" "RMSE"; eqz_row "d1" "C" "NH" "ME"])
  = Ok ((eqz_columns, [eqz_row "d1" "A" "NH" "ME"; eqz_row "d1" "B" "NH" "ME"; eqz_row "d2" "A" "NH" "ME";
                   eqz_row "d2" "A" "NH" "RMSE"; eqz_row "d2" "B" "NH" "RMSE"; eqz_row "d1" "C" "NH" "ME"]),
        Some (eqz_columns, [eqz_row "d1" "A" "NH" "ME"; eqz_row "d1" "B" "NH" "ME"; eqz_row "d2" "A" "NH" "RMSE"; eqz_row "d2" "B" "NH" "RMSE"])) /\
  Rectangular [eqz_row "d1" "A" "NH" "ME"] eqz_columns /\ ~ In "equalize" eqz_columns /\
  KeyColumns eqz_columns true "fcst_lead" ["fcst_valid_beg"; "fcst_lead"] /\
  Variables [("model", ["A:B"])] [("vx_mask", ["NH"])] [("model", ["A"; "B"]); ("vx_mask", ["NH"])] /\
  Members ["A:B"] ["A"; "B"].
Proof. exact C51_axis_case_proof. Qed.

(** C51: so for every statistic any two combinations of series and fixed values have the same events. *)
Theorem C51_balanced : forall show columns data indy fcst_vars series fixed kc vars input' out,
  Rectangular data columns -> ~ In "equalize" columns -> In "fcst_var" columns -> In "stat_name" columns ->
  NoDup (map fst series ++ map fst fixed) -> KeyColumns columns true indy kc ->
  Variables series fixed vars -> (forall n, In n (map fst vars) -> In n columns) -> series <> [] ->
  equalize_axis_data show (map fst fixed) (map snd fixed) indy (Some (Some fcst_vars)) series (columns, data)
    = Ok (input', Some (columns, out)) ->
  forall vs p1 p2 k, Combination vars p1 -> Combination vars p2 ->
    (OccursFor show columns kc vars vs out p1 k <-> OccursFor show columns kc vars vs out p2 k).
Proof. exact C51_balanced_proof. Qed.
Print Assumptions C51_balanced.

(** C51 fails for other series variables than the last one: rows with values that are not listed stay. *)
Theorem C51_unlisted_refuted : exists input',
  equalize_axis_data show_lead [] [] "fcst_lead" (Some (Some [("TMP", ["ME"])])) [("model", ["A"]); ("vx_mask", ["NH"])]
    (eqz_columns, [eqz_row "d1" "A" "NH" "ME"; eqz_row "d1" "B" "NH" "ME"])
  = Ok (input', Some (eqz_columns, [eqz_row "d1" "A" "NH" "ME"; eqz_row "d1" "B" "NH" "ME"])).
Proof. exact C51_unlisted_refuted_proof. Qed.
Print Assumptions C51_unlisted_refuted.

(** C51 fails for numeric series variables: if the last one has numbers or missing values only, nothing
    is left, although equalization by itself compares numbers. *)
Theorem C51_numbers_refuted : forall show columns data indy fcst_vars series fixed kc vars before var groups values,
  Rectangular data columns -> ~ In "equalize" columns ->
  NoDup (map fst series ++ map fst fixed) -> KeyColumns columns true indy kc ->
  Variables series fixed vars -> (forall n, In n (map fst vars) -> In n columns) ->
  series = (before ++ [(var, groups)])%list -> Members groups values -> axis_pairs fcst_vars <> [] ->
  In var columns -> (forall r s, In r data -> ~ CellOf columns r var (CStr s)) ->
  equalize_axis_data show (map fst fixed) (map snd fixed) indy (Some (Some fcst_vars)) series (columns, data)
    = Ok ((columns, data), Some (columns, [])).
Proof. exact C51_numbers_refuted_proof. Qed.
Print Assumptions C51_numbers_refuted.

Example C51_numbers_case :
  let columns := ["fcst_valid_beg"; "fcst_lead"; "points"] in
  let data := [[CStr "d1"; CNum 12; CNum 1]; [CStr "d1"; CNum 12; CNum 9]] in
  (exists kept, event_equalize show_lead data columns "fcst_lead" [("points", ["1"; "9"])] [] [] true = Ok kept /\ map snd kept = data) /\
  equalize_axis_data show_lead [] [] "fcst_lead" (Some (Some [("TMP", ["ME"])])) [("points", ["1"; "9"])] (columns, data)
    = Ok ((columns, data), Some (columns, [])).
Proof. exact C51_numbers_case_proof. Qed.

(** C51 fails without the columns of variable and statistic: every statistic adds one more copy. *)
Theorem C51_copies_refuted : forall show columns data indy fcst_vars series fixed kc vars,
  Rectangular data columns -> ~ In "equalize" columns -> ~ In "fcst_var" columns -> ~ In "stat_name" columns ->
  NoDup (map fst series ++ map fst fixed) -> KeyColumns columns true indy kc ->
  Variables series fixed vars -> (forall n, In n (map fst vars) -> In n columns) ->
  series <> [] -> axis_pairs fcst_vars <> [] ->
  exists part,
    equalize_axis_data show (map fst fixed) (map snd fixed) indy (Some (Some fcst_vars)) series (columns, data)
      = Ok ((columns, data), Some (columns, concat (map (fun _ => part) (axis_pairs fcst_vars)))).
Proof. exact C51_copies_refuted_proof. Qed.
Print Assumptions C51_copies_refuted.

Example C51_copies_case :
  let columns := ["fcst_valid_beg"; "fcst_lead"; "model"] in
  let data := [[CStr "d1"; CNum 12; CStr "A"]] in
  equalize_axis_data show_lead [] [] "fcst_lead" (Some (Some [("TMP", ["ME"; "RMSE"])])) [("model", ["A"])] (columns, data)
    = Ok ((columns, data), Some (columns, data ++ data))%list.
Proof. exact C51_copies_case_proof. Qed.

(** C51: without series variables the whole table is equalized once for each statistic, whatever the
    statistic of its rows, and the caller's table gets the keys. *)
Theorem C51_no_series : forall show columns data indy fcst_vars fixed kc vars,
  Rectangular data columns -> ~ In "equalize" columns -> TimeColumn indy ->
  NoDup (map fst fixed) -> KeyColumns columns true indy kc ->
  Variables [] fixed vars -> (forall n, In n (map fst vars) -> In n columns) -> axis_pairs fcst_vars <> [] ->
  exists part keyed,
    Equalized show columns kc vars data part /\ WithKeys show columns kc data keyed /\
    equalize_axis_data show (map fst fixed) (map snd fixed) indy (Some (Some fcst_vars)) [] (columns, data)
      = Ok (((columns ++ ["equalize"])%list, keyed), Some (columns, concat (map (fun _ => part) (axis_pairs fcst_vars)))).
Proof. exact C51_no_series_proof. Qed.
Print Assumptions C51_no_series.

(** C51: without an entry for the variables there is one statistic with empty names; with an empty entry
    there is no result. *)
Theorem C51_entry : forall show fix_vars fix_vals indy series input,
  equalize_axis_data show fix_vars fix_vals indy None series input
    = equalize_axis_data show fix_vars fix_vals indy (Some (Some [("", [""])])) series input /\
  equalize_axis_data show fix_vars fix_vals indy (Some None) series input = Ok (input, None).
Proof. exact C51_entry_proof. Qed.
Print Assumptions C51_entry.

(** C52: with a second axis, the rows of both axes together are equalized over the merged series. *)
Theorem C52_both : forall show set_order columns data indy var1 var2 series1 series2 m fixed fixed' kc vars d1 d2,
  Rectangular data columns -> ~ In "equalize" columns ->
  (forall l x, In x (set_order l) <-> In x l) ->
  NoDup (map fst series1) -> NoDup (map fst series2) -> series2 <> [] -> Merged series1 series2 m ->
  NoDup (map fst m ++ map fst fixed) -> KeyColumns columns true indy kc ->
  Variables m fixed vars -> (forall n, In n (map fst vars) -> In n columns) ->
  map fst fixed' = map fst fixed -> map (fun kv => fixed_permuted (snd kv)) fixed' = map snd fixed ->
  equalize_axis_data show (map fst fixed) (map snd fixed) indy var1 series1 (columns, data) = Ok ((columns, data), Some (columns, d1)) ->
  equalize_axis_data show (map fst fixed) (map snd fixed) indy var2 series2 (columns, data) = Ok ((columns, data), Some (columns, d2)) ->
  (forall r, In r (d1 ++ d2) -> In r data) ->
  exists out,
    perform_event_equalization show set_order fixed' indy var1 var2 series1 series2 (columns, data) = Ok (Some (columns, out)) /\
    Equalized show columns kc vars (d1 ++ d2) out /\
    (forall p1 p2 k, Combination vars p1 -> Combination vars p2 ->
       (Occurs show columns kc vars out p1 k <-> Occurs show columns kc vars out p2 k)).
Proof. exact C52_both_proof. Qed.
Print Assumptions C52_both.

Example C52_both_case :
  let columns := eqz_columns in
  let data := [eqz_row "d1" "A" "NH" "ME"; eqz_row "d2" "A" "NH" "ME"; eqz_row "d1" "A" "SH" "ME"] in
  equalize_axis_data show_lead [] [] "fcst_lead" (Some (Some [("TMP", ["ME"])])) [("model", ["A"])] (columns, data)
    = Ok ((columns, data), Some (columns, data)) /\
  equalize_axis_data show_lead [] [] "fcst_lead" (Some (Some [("TMP", ["ME"])])) [("vx_mask", ["NH"; "SH"])] (columns, data)
    = Ok ((columns, data), Some (columns, [eqz_row "d1" "A" "NH" "ME"; eqz_row "d1" "A" "SH" "ME"])) /\
  Merged [("model", ["A"])] [("vx_mask", ["NH"; "SH"])] [("model", ["A"]); ("vx_mask", ["NH"; "SH"])] /\
  perform_event_equalization show_lead (fun l => l) [] "fcst_lead" (Some (Some [("TMP", ["ME"])])) (Some (Some [("TMP", ["ME"])]))
    [("model", ["A"])] [("vx_mask", ["NH"; "SH"])] (columns, data)
    = Ok (Some (columns, [eqz_row "d1" "A" "NH" "ME"; eqz_row "d1" "A" "SH" "ME"; eqz_row "d1" "A" "NH" "ME"; eqz_row "d1" "A" "SH" "ME"])).
Proof. exact C52_both_case_proof. Qed.

(** C52: fixed values may be a list or a dictionary of one list. *)
Theorem C52_fixed : forall key l, fixed_permuted (FList l) = l /\ fixed_permuted (FDict [(key, l)]) = l.
Proof. exact C52_fixed_proof. Qed.
Print Assumptions C52_fixed.
(** C52: a plain text is taken for the list of its characters. *)
Theorem C52_fixed_text_refuted : forall show set_order indy var1 var2 series1 series2 input name s,
  perform_event_equalization show set_order [(name, FText s)] indy var1 var2 series1 series2 input =
  perform_event_equalization show set_order [(name, FList (map (fun c => String c "") (list_ascii_of_string s)))]
    indy var1 var2 series1 series2 input.
Proof. exact C52_fixed_text_refuted_proof. Qed.
Print Assumptions C52_fixed_text_refuted.

(** C52: without a second axis the result is that of the first axis. *)
Theorem C52_one_axis : forall show set_order fixed indy var1 var2 series1 input input' out,
  equalize_axis_data show (map fst fixed) (map (fun kv => fixed_permuted (snd kv)) fixed) indy var1 series1 input = Ok (input', out) ->
  perform_event_equalization show set_order fixed indy var1 var2 series1 [] input = Ok out.
Proof. exact C52_one_axis_proof. Qed.
Print Assumptions C52_one_axis.

(** C52 fails for axes with the same series: they are not equalized against each other, the last step
    removes nothing at all. *)
Theorem C52_same_series_refuted : forall show set_order columns data indy vars1 vars2 series fixed fixed' kc vars d1 d2,
  Rectangular data columns -> ~ In "equalize" columns ->
  (forall l x, In x (set_order l) <-> In x l) ->
  series <> [] -> NoDup (map fst series ++ map fst fixed) -> KeyColumns columns true indy kc ->
  Variables series fixed vars -> (forall n, In n (map fst vars) -> In n columns) ->
  map fst fixed' = map fst fixed -> map (fun kv => fixed_permuted (snd kv)) fixed' = map snd fixed ->
  equalize_axis_data show (map fst fixed) (map snd fixed) indy (Some (Some vars1)) series (columns, data) = Ok ((columns, data), Some (columns, d1)) ->
  equalize_axis_data show (map fst fixed) (map snd fixed) indy (Some (Some vars2)) series (columns, data) = Ok ((columns, data), Some (columns, d2)) ->
  perform_event_equalization show set_order fixed' indy (Some (Some vars1)) (Some (Some vars2)) series series (columns, data)
    = Ok (Some (columns, (d1 ++ d2)%list)).
Proof. exact C52_same_series_refuted_proof. Qed.
Print Assumptions C52_same_series_refuted.

Example C52_same_series_case :
  perform_event_equalization show_lead (fun l => l) [] "fcst_lead" (Some (Some [("TMP", ["ME"])])) (Some (Some [("TMP", ["RMSE"])]))
    [("model", ["A"])] [("model", ["A"])]
    (eqz_columns, [eqz_row "d1" "A" "NH" "ME"; eqz_row "d2" "A" "NH" "ME"; eqz_row "d2" "A" "NH" "RMSE"])
  = Ok (Some (eqz_columns, [eqz_row "d1" "A" "NH" "ME"; eqz_row "d2" "A" "NH" "ME"; eqz_row "d2" "A" "NH" "RMSE"])).
Proof. exact C52_same_series_case_proof. Qed.

(** C52 fails for a series variable on both axes: only the values of the second axis count, so an event
    that is missing on the first axis stays on the second. *)
Theorem C52_shared_variable_refuted : forall set_order, (forall x, set_order [x] = [x]) ->
  perform_event_equalization show_lead set_order [] "fcst_lead" (Some (Some [("TMP", ["ME"])])) (Some (Some [("TMP", ["ME"])]))
    [("model", ["A"])] [("model", ["B"])]
    (eqz_columns, [eqz_row "d1" "A" "NH" "ME"; eqz_row "d1" "B" "NH" "ME"; eqz_row "d2" "B" "NH" "ME"; eqz_row "d3" "A" "NH" "ME"])
  = Ok (Some (eqz_columns, [eqz_row "d1" "A" "NH" "ME"; eqz_row "d1" "B" "NH" "ME"; eqz_row "d2" "B" "NH" "ME"])).
Proof. exact C52_shared_variable_refuted_proof. Qed.
Print Assumptions C52_shared_variable_refuted.

(** C53: the stand-alone equalization of an axis: for every series variable, the rows with a listed value
    of this variable are equalized over all variables; the results are put one after the other. *)
Theorem C53_axis : forall show columns data indy series fixed kc vars values,
  Rectangular data columns -> ~ In "equalize" columns ->
  NoDup (map fst series ++ map fst fixed) -> KeyColumns columns true indy kc ->
  Variables series fixed vars -> (forall n, In n (map fst vars) -> In n columns) ->
  series <> [] -> (forall n, In n (map fst series) -> In n columns) ->
  Forall2 (fun sv vals => exists ls, Forall2 Pieces (snd sv) ls /\ vals = concat ls) series values ->
  exists parts out,
    Forall2 (fun svv part => exists sub, Selection (Listed columns (fst (fst svv)) (snd svv)) data sub /\
               Equalized show columns kc vars sub part) (combine series values) parts /\
    WithKeys show columns kc (concat parts) out /\
    run_ee_on_axis show indy series (map fst fixed) (map snd fixed) (columns, data)
      = Ok (Some ((columns ++ ["equalize"])%list, out)).
Proof. exact C53_axis_proof. Qed.
Print Assumptions C53_axis.

Example C53_axis_case :
  run_ee_on_axis show_lead "fcst_lead" [("model", ["A:B"])] ["vx_mask"] [["NH"]]
    (eqz_columns, [eqz_row "d1" "A" "NH" "ME"; eqz_row "d1" "B" "NH" "ME"; eqz_row "d2" "A" "NH" "ME"])
  = Ok (Some ((eqz_columns ++ ["equalize"])%list,
      [eqz_row "d1" "A" "NH" "ME" ++ [CStr "d1 12"]; eqz_row "d1" "B" "NH" "ME" ++ [CStr "d1 12"]]%list)) /\
  Forall2 (fun sv vals => exists ls, Forall2 Pieces (snd sv) ls /\ vals = concat ls) [("model", ["A:B"])] [["A"; "B"]].
Proof. exact C53_axis_case_proof. Qed.

(** C53 fails with two series variables: rows with listed values of both come twice. *)
Theorem C53_copies_refuted :
  run_ee_on_axis show_lead "fcst_lead" [("model", ["A"]); ("vx_mask", ["NH"])] [] [] (eqz_columns, [eqz_row "d1" "A" "NH" "ME"])
  = Ok (Some ((eqz_columns ++ ["equalize"])%list,
      [eqz_row "d1" "A" "NH" "ME" ++ [CStr "d1 12"]; eqz_row "d1" "A" "NH" "ME" ++ [CStr "d1 12"]]%list)).
Proof. exact C53_copies_refuted_proof. Qed.
Print Assumptions C53_copies_refuted.

(** C53 fails for several values of a fixed variable: only the first one counts, and the second one is
    taken for the value of the next fixed variable, whose own values are ignored. *)
Theorem C53_fixed_refuted : forall show uniq indy series1 series2 input a b ka kb x y z,
  agg_stat_event_equalize show uniq [(a, [(ka, [x; y])]); (b, [(kb, [z])])] indy series1 series2 input =
  agg_stat_event_equalize show uniq [(a, [(ka, [x])]); (b, [(kb, [y])])] indy series1 series2 input.
Proof. exact C53_fixed_refuted_proof. Qed.
Print Assumptions C53_fixed_refuted.

(** C53: the result on both axes is equalized over the series of the second axis only. *)
Theorem C53_both : forall show uniq columns data indy series1 series2 fixed fixed' kc vars d1 d2 k1 k2,
  Rectangular data columns -> ~ In "equalize" columns ->
  (forall l x, In x (uniq l) <-> In x l) ->
  data <> [] -> series2 <> [] -> NoDup (map fst series2 ++ map fst fixed) -> KeyColumns columns true indy kc ->
  Variables series2 fixed vars -> (forall n, In n (map fst vars) -> In n columns) ->
  map fst fixed' = map fst fixed ->
  Forall2 (fun kv' kv => map snd (snd kv') = map (fun x => [x]) (snd kv)) fixed' fixed ->
  run_ee_on_axis show indy series1 (map fst fixed) (map snd fixed) (columns, data) = Ok (Some ((columns ++ ["equalize"])%list, k1)) ->
  run_ee_on_axis show indy series2 (map fst fixed) (map snd fixed) (columns, data) = Ok (Some ((columns ++ ["equalize"])%list, k2)) ->
  WithKeys show columns kc d1 k1 -> WithKeys show columns kc d2 k2 -> (forall r, In r (d1 ++ d2) -> In r data) ->
  exists part out,
    agg_stat_event_equalize show uniq fixed' indy series1 series2 (columns, data) = Ok (Some ((columns ++ ["equalize"])%list, out)) /\
    Equalized show columns kc vars (d1 ++ d2) part /\ WithKeys show columns kc part out.
Proof. exact C53_both_proof. Qed.
Print Assumptions C53_both.

Example C53_both_case :
  let data := [eqz_row "d1" "A" "NH" "ME"; eqz_row "d2" "A" "NH" "ME"; eqz_row "d1" "A" "SH" "ME"] in
  agg_stat_event_equalize show_lead (fun l => l) [] "fcst_lead" [("vx_mask", ["NH"; "SH"])] [("model", ["A"])] (eqz_columns, data)
    = Ok (Some ((eqz_columns ++ ["equalize"])%list,
        [eqz_row "d1" "A" "NH" "ME" ++ [CStr "d1 12"]; eqz_row "d1" "A" "SH" "ME" ++ [CStr "d1 12"];
         eqz_row "d1" "A" "NH" "ME" ++ [CStr "d1 12"]; eqz_row "d2" "A" "NH" "ME" ++ [CStr "d2 12"];
         eqz_row "d1" "A" "SH" "ME" ++ [CStr "d1 12"]]%list)).
Proof. exact C53_both_case_proof. Qed.

(** C53: series values that are date-times are cut at their colons, so no row is kept. *)
Theorem C53_dates_refuted : forall show columns data indy series fixed kc vars var vals,
  Rectangular data columns -> ~ In "equalize" columns ->
  NoDup (map fst series ++ map fst fixed) -> KeyColumns columns true indy kc ->
  Variables series fixed vars -> (forall n, In n (map fst vars) -> In n columns) ->
  series = [(var, vals)] -> In var columns -> (forall r c, In r data -> CellOf columns r var c -> exists w, c = CStr w /\ DateTime w) ->
  run_ee_on_axis show indy series (map fst fixed) (map snd fixed) (columns, data)
    = Ok (Some ((columns ++ ["equalize"])%list, [])).
Proof. exact C53_dates_refuted_proof. Qed.
Print Assumptions C53_dates_refuted.

(** C53: a series variable that is no column of the table: no result, a KeyError if it is the first one. *)
Theorem C53_missing : forall show columns data indy series fix_vars fix_vals var,
  In var (map fst series) -> ~ In var columns ->
  (forall out, run_ee_on_axis show indy series fix_vars fix_vals (columns, data) <> Ok out) /\
  (hd_error (map fst series) = Some var -> run_ee_on_axis show indy series fix_vars fix_vals (columns, data) = Err KeyError).
Proof. exact C53_missing_proof. Qed.
Print Assumptions C53_missing.
Example C53_missing_case :
  In "thresh" (map fst [("model", ["A"]); ("thresh", [">0"])]) /\ ~ In "thresh" eqz_columns.
Proof. exact C53_missing_case_proof. Qed.

(** C53: for a table without rows nothing is written. *)
Theorem C53_empty : forall show uniq fixed indy series1 series2 columns,
  agg_stat_event_equalize show uniq fixed indy series1 series2 (columns, []) = Ok None.
Proof. exact C53_empty_proof. Qed.
Print Assumptions C53_empty.

(** C54: equalization against previous cases: for every variable and series variable the rows of this
    variable with a listed value whose valid time and lead is a key of such rows in the previous cases. *)
Theorem C54_axis : forall show columns data pcolumns prev fcst_vars series values,
  Rectangular data columns -> Rectangular prev pcolumns ->
  In "fcst_valid" columns -> In "fcst_lead" columns -> In "fcst_var" columns -> ~ In "equalize" columns ->
  In "fcst_var" pcolumns -> In "equalize" pcolumns ->
  (forall n, In n (map fst series) -> In n columns /\ In n pcolumns) ->
  Forall2 (fun sv vals => exists ls, Forall2 Pieces (snd sv) ls /\ vals = concat ls) series values ->
  exists parts,
    Forall2 (fun fvs part => exists sub rows kept,
        let fv := fst fvs in let var := fst (fst (snd fvs)) in let vals := snd (snd fvs) in
        Selection (fun r => CellOf columns r "fcst_var" (CStr fv) /\ Listed columns var vals r) data sub /\
        Keyed show columns ["fcst_valid"; "fcst_lead"] sub rows /\
        Selection (fun kr => exists r, In r prev /\ CellOf pcolumns r "fcst_var" (CStr fv) /\ Listed pcolumns var vals r /\
                                       CellOf pcolumns r "equalize" (CStr (fst kr))) rows kept /\
        part = map snd kept)
      (list_prod (map fst fcst_vars) (combine series values)) parts /\
    eqz_on_axis show (columns, data) (pcolumns, prev) fcst_vars series = Ok (concat parts).
Proof. exact C54_axis_proof. Qed.
Print Assumptions C54_axis.

Example C54_axis_case :
  let columns := ["fcst_valid"; "fcst_lead"; "fcst_var"; "model"] in
  eqz_on_axis show_lead
    (columns, [[CStr "d1"; CNum 12; CStr "TMP"; CStr "A"]; [CStr "d2"; CNum 12; CStr "TMP"; CStr "A"]])
    ((columns ++ ["equalize"])%list, [[CStr "d2"; CNum 12; CStr "TMP"; CStr "A"; CStr "d2 12"]; [CStr "d1"; CNum 12; CStr "TMP"; CStr "B"; CStr "d1 12"]])
    [("TMP", ["ME"])] [("model", ["A"])]
  = Ok [[CStr "d2"; CNum 12; CStr "TMP"; CStr "A"]].
Proof. exact C54_axis_case_proof. Qed.

(** C54: without the forecast variable, a series variable or the keys of the previous cases there is no
    result. *)
Theorem C54_missing : forall show columns data pcolumns prev fcst_vars series,
  fcst_vars <> [] -> series <> [] ->
  (~ In "fcst_var" columns \/ ~ In "fcst_var" pcolumns \/ ~ In "equalize" pcolumns \/
   exists n, In n (map fst series) /\ (~ In n columns \/ ~ In n pcolumns)) ->
  forall out, eqz_on_axis show (columns, data) (pcolumns, prev) fcst_vars series <> Ok out.
Proof. exact C54_missing_proof. Qed.
Print Assumptions C54_missing.
Example C54_missing_case :
  [("TMP", ["ME"])] <> [] /\ [("model", ["A"])] <> [] /\ ~ In "equalize" eqz_columns.
Proof. exact C54_missing_case_proof. Qed.
