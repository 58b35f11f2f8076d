(** Property C38: aggregation of joined field values. *)
From Coq Require Import Ascii.
From Verif Require Import PyBase ColumnModel BaseSpec AggSpec EventSpec SumModel SumSpec SumProofs.
Open Scope string_scope.
Open Scope Q_scope.

(** C38: however the pairs are divided over the lines, the aggregated line holds their number
    and the means over all of them. *)
Theorem C38_pooled : forall A (fields : list (string * (A -> Q))) columns groups data line_type names,
  In (line_type, names) moment_lines -> SameFields names fields ->
  Summaries fields columns groups data ->
  exists agg, calc_series_sums columns data line_type = Ok agg /\
    map fst agg = "total" :: names /\
    Gives agg "total" (count (concat groups)) /\
    forall name g, In (name, g) fields -> Gives agg name (mean_of g (concat groups)).
Proof. exact C38_pooled_proof. Qed.
Print Assumptions C38_pooled.

Example C38_pooled_case : exists groups data,
  length groups = 2%nat /\ In ("sl1l2", map fst ex_fields) moment_lines /\
  Summaries ex_fields (line_columns ex_fields) groups data.
Proof. exact C38_pooled_case_proof. Qed.

(** C38: neighbourhood lines: FBS and the rates are pooled means, and FSS, AFSS and UFSS are
    those of all points together, as long as no line is perfect. *)
Theorem C38_neighbourhood : forall columns groups data,
  groups <> [] -> Forall2 (NbrRow columns) groups data ->
  (forall b, In b groups -> ~ mean_of square_diff b == 0) ->
  let all := concat groups in
  let f := mean_of fst all in
  let o := mean_of snd all in
  ~ f * f + o * o == 0 ->
  exists agg, calc_series_sums columns data "nbrcnt" = Ok agg /\
    map fst agg = ["total"; "fbs"; "fss"; "afss"; "ufss"; "f_rate"; "o_rate"] /\
    Gives agg "total" (count all) /\
    Gives agg "fbs" (mean_of square_diff all) /\
    Gives agg "fss" (1 - mean_of square_diff all / mean_of square_sum all) /\
    Gives agg "f_rate" f /\ Gives agg "o_rate" o /\
    Gives agg "afss" (2 * f * o / (f * f + o * o)) /\
    Gives agg "ufss" ((1 # 2) + o / 2).
Proof. exact C38_neighbourhood_proof. Qed.
Print Assumptions C38_neighbourhood.

Example C38_neighbourhood_case :
  Forall2 (NbrRow ["total"; "fbs"; "f_rate"; "o_rate"; "fss"])
    [[(1, 0)]; [(1, 1); (1 # 2, 0)]]
    [[CNum 1; CNum 1; CNum 1; CNum 0; CNum 0]; [CNum 2; CNum (1 # 8); CNum (3 # 4); CNum (1 # 2); CNum (8 # 9)]].
Proof. exact C38_neighbourhood_case_proof. Qed.

(** C38 fails for neighbourhood lines when one of them is perfect (FSS 1): it is left out of
    the reference value, and the aggregated FSS is too low. *)
Theorem C38_perfect_line_refuted : exists columns groups data agg v,
  groups <> [] /\ Forall2 (NbrRow columns) groups data /\
  calc_series_sums columns data "nbrcnt" = Ok agg /\
  Gives agg "fss" v /\
  v < 1 - mean_of square_diff (concat groups) / mean_of square_sum (concat groups).
Proof. exact C38_perfect_line_refuted_proof. Qed.
Print Assumptions C38_perfect_line_refuted.

(** C38: ensemble lines: mean square errors, the score of climatology and the plain means are
    those of all cases together. *)
Theorem C38_ensemble : forall columns groups data,
  groups <> [] -> Forall2 (EnsRow columns) groups data ->
  let all := concat groups in
  exists agg, calc_series_sums columns data "ecnt" = Ok agg /\
    map fst agg = "total" :: "mse" :: "mse_oerr" :: "crps_climo" :: map fst ens_fields /\
    Gives agg "total" (count all) /\
    Gives agg "mse" (mean_of e_sq all) /\ Gives agg "mse_oerr" (mean_of e_sq_oerr all) /\
    Gives agg "crps_climo" (mean_of e_climo all) /\
    forall name g, In (name, g) ens_fields -> Gives agg name (mean_of g all).
Proof. exact C38_ensemble_proof. Qed.
Print Assumptions C38_ensemble.

Example C38_ensemble_case :
  EnsRow ["total"; "rmse"; "rmse_oerr"; "crpss"; "me"; "crps"; "ign"; "spread"; "me_oerr"; "spread_oerr"; "spread_plus_oerr"]
    [Build_ens_case 4 1 1 2 3 1 1 1 1 1; Build_ens_case 14 1 1 2 5 1 1 1 1 1]
    [CNum 2; CNum 3; CNum 1; CNum (1 # 2); CNum 4; CNum 1; CNum 1; CNum 1; CNum 1; CNum 1; CNum 1].
Proof. exact C38_ensemble_case_proof. Qed.

(** C38: ranked probability lines. *)
Theorem C38_ranked : forall columns groups data,
  groups <> [] -> Forall2 (RpsRow columns) groups data ->
  let all := concat groups in
  exists agg, calc_series_sums columns data "rps" = Ok agg /\
    map fst agg = ["total"; "rps"; "rps_comp"; "rps_climo"] /\
    Gives agg "total" (count all) /\
    Gives agg "rps" (mean_of (fun c => fst (fst c)) all) /\
    Gives agg "rps_comp" (mean_of (fun c => snd (fst c)) all) /\
    Gives agg "rps_climo" (mean_of snd all).
Proof. exact C38_ranked_proof. Qed.
Print Assumptions C38_ranked.

Example C38_ranked_case :
  RpsRow ["total"; "rps"; "rps_comp"; "rpss"] [(1, 0, 2); (2, 1, 4)]
    [CNum 2; CNum (3 # 2); CNum (1 # 2); CNum (1 # 2)].
Proof. exact C38_ranked_case_proof. Qed.

(** C38 fails for contingency counts: the aggregation raises on every table. *)
Theorem C38_counts_refuted : forall columns data agg,
  calc_series_sums columns data "ctc" <> Ok agg /\ calc_series_sums columns data "nbrctc" <> Ok agg.
Proof. exact C38_counts_refuted_proof. Qed.
Print Assumptions C38_counts_refuted.

(** C38 fails for anomaly lines: the result has none of the fields of such a line, so the
    aggregated row keeps those of its first line. *)
Theorem C38_anomaly_refuted : forall columns data agg name,
  calc_series_sums columns data "sal1l2" = Ok agg ->
  In name ["fabar"; "oabar"; "foabar"; "ffabar"; "ooabar"] -> ~ In name (map fst agg).
Proof. exact C38_anomaly_refuted_proof. Qed.
Print Assumptions C38_anomaly_refuted.

Example C38_anomaly_case : exists agg,
  calc_series_sums ["total"; "fabar"; "oabar"; "foabar"; "ffabar"; "ooabar"]
    [[CNum 1; CNum 1; CNum 1; CNum 1; CNum 1; CNum 1]] "sal1l2" = Ok agg.
Proof. exact C38_anomaly_case_proof. Qed.

(** C38 fails for lines with a missing mean: such a line counts as zero, with its full weight. *)
Theorem C38_missing_mean_refuted : exists data agg,
  data = [[CNum 1; CNum 6; CNum 6; CNum 6; CNum 6; CNum 6]; [CNum 2; CMiss; CNum 6; CNum 6; CNum 6; CNum 6]] /\
  calc_series_sums (line_columns ex_fields) data "sl1l2" = Ok agg /\
  Gives agg "fbar" 2 /\ Gives agg "obar" 6.
Proof. exact C38_missing_mean_refuted_proof. Qed.
Print Assumptions C38_missing_mean_refuted.

(** C38: without a positive number of pairs nothing is aggregated: the aggregation raises. *)
Theorem C38_no_pairs : forall columns data line_type t,
  Rectangular data columns -> NumericColumn data columns "total" ->
  ColumnTotal data columns "total" t -> t = None \/ (exists q, t = Some q /\ q == 0) ->
  In line_type ["ctc"; "nbrctc"; "sl1l2"; "sal1l2"; "vl1l2"; "val1l2"; "grad"; "nbrcnt"; "ecnt"; "rps"] ->
  exists e, calc_series_sums columns data line_type = Err e.
Proof. exact C38_no_pairs_proof. Qed.
Print Assumptions C38_no_pairs.

Example C38_no_pairs_case :
  ColumnTotal [[CNum 0; CNum 5]; [CMiss; CNum 6]] ["total"; "fbar"] "total" (Some (0 + 0)) /\
  ColumnTotal [] ["total"; "fbar"] "total" None.
Proof. exact C38_no_pairs_case_proof. Qed.

(** C38: line types without a rule: only the total is aggregated. *)
Theorem C38_other_lines : forall columns data line_type t,
  ~ In line_type ["ctc"; "nbrctc"; "sl1l2"; "sal1l2"; "vl1l2"; "val1l2"; "grad"; "nbrcnt"; "ecnt"; "rps"] ->
  Rectangular data columns -> NumericColumn data columns "total" ->
  ColumnTotal data columns "total" t ->
  exists t', calc_series_sums columns data line_type = Ok [("total", t')] /\ oeq t t'.
Proof. exact C38_other_lines_proof. Qed.
Print Assumptions C38_other_lines.

Example C38_other_lines_case :
  ~ In "mctc" ["ctc"; "nbrctc"; "sl1l2"; "sal1l2"; "vl1l2"; "val1l2"; "grad"; "nbrcnt"; "ecnt"; "rps"] /\
  ColumnTotal [[CNum 3; CNum 5]; [CMiss; CNum 6]; [CNum 4; CMiss]] ["total"; "n_cat"] "total" (Some 7).
Proof. exact C38_other_lines_case_proof. Qed.

(** C38: with one joined value, the lines of the joined values are replaced by one line for
    every valid and lead time, which holds the number of their pairs and the means over all of
    them; the other lines stay as they are.  This needs a line for every combination of a
    valid and a lead time of the table. *)
Theorem C38_joined : forall A (fields : list (string * (A -> Q))) (cases : row -> list A)
    columns fr var vals joined line_type names,
  In (line_type, names) moment_lines -> SameFields names fields ->
  Ascending fr -> Rectangular (map snd fr) columns -> NoDup columns ->
  In "fcst_valid_beg" columns -> In "fcst_lead" columns -> In var columns ->
  ~ In var ("total" :: "fcst_valid_beg" :: "fcst_lead" :: names) ->
  Joined vals joined ->
  (forall x, In x fr -> Member columns var vals (snd x) ->
     SummaryRow fields columns (cases (snd x)) (snd x)) ->
  (forall x y, In x fr -> In y fr -> exists z v l, In z fr /\ Member columns var vals (snd z) /\
     CellOf columns (snd x) "fcst_valid_beg" v /\ CellOf columns (snd y) "fcst_lead" l /\
     TimeAt columns (v, l) (snd z)) ->
  exists kept new times,
    aggregate_field_values [(var, [joined])] columns fr line_type = Ok (kept ++ new)%list /\
    Selection (fun x => ~ Member columns var vals (snd x)) fr kept /\
    Pairwise DifferentTimes times /\
    (forall x, In x fr -> exists t, In t times /\ TimeAt columns t (snd x)) /\
    Forall2 (fun t x =>
        TimeAt columns t (snd x) /\ CellOf columns (snd x) var (CStr joined) /\
        exists rows, Selection (fun y => Member columns var vals (snd y) /\ TimeAt columns t (snd y)) fr rows /\
          SummaryRow fields columns (cases_of cases rows) (snd x)) times new.
Proof. exact C38_joined_proof. Qed.
Print Assumptions C38_joined.

Example C38_joined_case :
  let fr := [(0%nat, ex_row "00Z" 12 "EAST" [(1, 2)]); (1%nat, ex_row "00Z" 12 "WEST" [(3, 5)]);
             (2%nat, ex_row "00Z" 12 "NMT" [(7, 4)]); (3%nat, ex_row "06Z" 12 "NMT" [(2, 2)])] in
  Ascending fr /\ Rectangular (map snd fr) ex_columns /\ NoDup ex_columns /\
  Joined ["EAST"; "NMT"] "EAST;NMT" /\
  (forall x, In x fr -> SummaryRow ex_fields ex_columns (ex_cases (snd x)) (snd x)) /\
  (forall x y, In x fr -> In y fr -> exists z v l, In z fr /\ Member ex_columns "vx_mask" ["EAST"; "NMT"] (snd z) /\
     CellOf ex_columns (snd x) "fcst_valid_beg" v /\ CellOf ex_columns (snd y) "fcst_lead" l /\
     TimeAt ex_columns (v, l) (snd z)).
Proof. exact C38_joined_case_proof. Qed.

(** C38: the same for joined lead times (blank ones are skipped), one line for every valid time.  The lead time of
    the new line is the text of the first of the joined ones, not the joined name. *)
Theorem C38_joined_leads : forall A (fields : list (string * (A -> Q))) (cases : row -> list A)
    columns fr vals spelled leads joined line_type names,
  In (line_type, names) moment_lines -> SameFields names fields ->
  Ascending fr -> Rectangular (map snd fr) columns -> NoDup columns ->
  In "fcst_valid_beg" columns -> In "fcst_lead" columns ->
  Joined vals joined -> Selection (fun s => s <> "") vals spelled -> Forall2 WholeNumber spelled leads ->
  (forall x, In x fr -> LeadMember columns leads (snd x) ->
     SummaryRow fields columns (cases (snd x)) (snd x)) ->
  (forall x, In x fr -> exists z v, In z fr /\ LeadMember columns leads (snd z) /\
     CellOf columns (snd x) "fcst_valid_beg" v /\ ValidAt columns v (snd z)) ->
  exists kept new valids,
    aggregate_field_values [("fcst_lead", [joined])] columns fr line_type = Ok (kept ++ new)%list /\
    Selection (fun x => ~ LeadMember columns leads (snd x)) fr kept /\
    Pairwise (fun v w => ~ SameCell v w) valids /\
    (forall x, In x fr -> exists v, In v valids /\ ValidAt columns v (snd x)) /\
    Forall2 (fun v x =>
        ValidAt columns v (snd x) /\ CellOf columns (snd x) "fcst_lead" (CStr (hd "" vals)) /\
        exists rows, Selection (fun y => LeadMember columns leads (snd y) /\ ValidAt columns v (snd y)) fr rows /\
          SummaryRow fields columns (cases_of cases rows) (snd x)) valids new.
Proof. exact C38_joined_leads_proof. Qed.
Print Assumptions C38_joined_leads.

Example C38_joined_leads_case :
  let fr := [(0%nat, ex_row "00Z" 12 "EAST" [(1, 2)]); (1%nat, ex_row "00Z" 24 "EAST" [(3, 5)]);
             (2%nat, ex_row "00Z" 36 "EAST" [(7, 4)]); (3%nat, ex_row "06Z" 24 "EAST" [(2, 2)])] in
  Ascending fr /\ Joined ["12"; "24"; ""] "12;24;" /\
  Selection (fun s => s <> "") ["12"; "24"; ""] ["12"; "24"] /\ Forall2 WholeNumber ["12"; "24"] [12%Z; 24%Z] /\
  (forall x, In x fr -> exists z v, In z fr /\ LeadMember ex_columns [12%Z; 24%Z] (snd z) /\
     CellOf ex_columns (snd x) "fcst_valid_beg" v /\ ValidAt ex_columns v (snd z)).
Proof. exact C38_joined_leads_case_proof. Qed.

(** C38: a joined lead time that is neither blank nor a whole number raises a ValueError. *)
Theorem C38_bad_lead : forall columns (fr : list (nat * row)) vals joined line_type s x,
  Rectangular (map snd fr) columns -> In "fcst_valid_beg" columns -> In "fcst_lead" columns ->
  Joined vals joined -> In x fr -> (exists v, CellOf columns (snd x) "fcst_valid_beg" v /\ v <> CMiss) ->
  In s vals -> s <> "" -> (forall z, ~ WholeNumber s z) ->
  aggregate_field_values [("fcst_lead", [joined])] columns fr line_type = Err ValueError.
Proof. exact C38_bad_lead_proof. Qed.
Print Assumptions C38_bad_lead.

Example C38_bad_lead_case : Joined ["12"; "24h"] "12;24h" /\ (forall z, ~ WholeNumber "24h" z).
Proof. exact C38_bad_lead_case_proof. Qed.

(** C38 fails when a valid time and a lead time of the table have no line of the joined
    values: the whole aggregation raises. *)
Theorem C38_incomplete_refuted : forall columns fr var vals joined line_type x y v l,
  In line_type ["ctc"; "nbrctc"; "sl1l2"; "sal1l2"; "vl1l2"; "val1l2"; "grad"; "nbrcnt"; "ecnt"; "rps"] ->
  Rectangular (map snd fr) columns -> var <> "fcst_lead" -> Joined vals joined ->
  In x fr -> In y fr ->
  CellOf columns (snd x) "fcst_valid_beg" v -> CellOf columns (snd y) "fcst_lead" l ->
  (forall z, In z fr -> Member columns var vals (snd z) -> ~ TimeAt columns (v, l) (snd z)) ->
  exists e, aggregate_field_values [(var, [joined])] columns fr line_type = Err e.
Proof. exact C38_incomplete_refuted_proof. Qed.
Print Assumptions C38_incomplete_refuted.

Example C38_incomplete_case :
  let fr := [(0%nat, ex_row "00Z" 12 "EAST" [(1, 2)]); (1%nat, ex_row "06Z" 24 "EAST" [(3, 5)])] in
  forall z, In z fr -> Member ex_columns "vx_mask" ["EAST"; "NMT"] (snd z) ->
  ~ TimeAt ex_columns (CStr "00Z", CNum 24) (snd z).
Proof. exact C38_incomplete_case_proof. Qed.

(** C38 fails for two joined values: the new lines share the index label 0, and the lines of
    the first joined value disappear with the first line of the table. *)
Theorem C38_two_values_refuted : exists fr out,
  Ascending fr /\
  (forall x, In x fr -> SummaryRow ex_fields ex_columns (ex_cases (snd x)) (snd x)) /\
  (exists x, In x fr /\ Member ex_columns "vx_mask" ["EAST"; "NMT"] (snd x)) /\
  aggregate_field_values [("vx_mask", ["EAST;NMT"; "WEST;SMT"])] ex_columns fr "sl1l2" = Ok out /\
  length out = 1%nat /\
  forall x, In x out -> CellOf ex_columns (snd x) "vx_mask" (CStr "WEST;SMT").
Proof. exact C38_two_values_refuted_proof. Qed.
Print Assumptions C38_two_values_refuted.

(** C38: without joined values, and in tables without the time columns. *)
Theorem C38_nothing_joined : forall series columns fr line_type,
  Rectangular (map snd fr) columns ->
  (forall var vals v, In (var, vals) series -> In v vals -> ~ In ";"%char (list_ascii_of_string v)) ->
  (In "fcst_valid_beg" columns /\ In "fcst_lead" columns ->
     aggregate_field_values series columns fr line_type = Ok fr) /\
  (~ In "fcst_valid_beg" columns \/ ~ In "fcst_lead" columns ->
     aggregate_field_values series columns fr line_type = Err AttributeError).
Proof. exact C38_nothing_joined_proof. Qed.
Print Assumptions C38_nothing_joined.

Example C38_nothing_joined_case : forall var vals v,
  In (var, vals) [("vx_mask", ["EAST"; "NMT"])] -> In v vals -> ~ In ";"%char (list_ascii_of_string v).
Proof. exact C38_nothing_joined_case_proof. Qed.
