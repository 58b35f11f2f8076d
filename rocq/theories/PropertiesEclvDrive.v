(** The driver of economic cost/loss values: property C61. *)
From Coq Require Import Ascii.
From Verif Require Import PyBase ColumnModel BaseSpec EventSpec EclvSpec BootModel DriveSpec EclvDriveModel EclvDriveSpec EclvDriveProofs.
From Coq Require Import List.
Open Scope string_scope.

(** C61: the output has, for every combination of series values in order and every threshold of its rows, one
    row for each cost/loss ratio: the economic value of the totals of exactly the rows with these values, and
    their number.  This holds with and without bootstrap. *)
Theorem C61_rows : forall np_float columns data series step add boot out,
  CountTable columns data -> data <> [] -> 0 < step ->
  aggregate_eclv np_float "ctc" columns data series step add boot = Ok out ->
  exists blocks, out = concat (concat blocks) /\
    Forall2 (fun p curves => exists rows thresholds,
        Selection (OfCurve columns series p) data rows /\ Thresholds columns rows thresholds /\
        Forall2 (CurveRows columns series step p rows) thresholds curves)
      (combinations (map snd series)) blocks.
Proof. exact C61_rows_proof. Qed.
Print Assumptions C61_rows.
Example C61_rows_case :
  CountTable eclv_columns eclv_data /\
  exists out, aggregate_eclv false "ctc" eclv_columns eclv_data [("model", ["A"; "B"])] (1 # 4) None None = Ok out /\
    map (fun o => (eclv_point o, Qred (x_pnt_i o), option_map Qred (y_pnt_i o), eclv_nstats o)) out =
    map (fun x => ([("model", fst (fst (fst x)))], snd (fst (fst x)), Some (snd (fst x)), snd x))
      [(("A", 1 # 4), 7 # 11, 2%nat); (("A", 1 # 2), 1 # 2, 2%nat); (("A", 3 # 4), 0, 2%nat);
       (("B", 1 # 4), 1 # 4, 2%nat); (("B", 1 # 2), -(1 # 4), 2%nat); (("B", 3 # 4), -(7 # 4), 2%nat)].
Proof. exact C61_rows_case_proof. Qed.

(** C61: without bootstrap the run either gives an output or raises a TypeError; it gives an output exactly if
    every combination (with a threshold) has both events and other cases. *)
Theorem C61_defined : forall np_float columns data series step add,
  CountTable columns data -> data <> [] -> 0 < step -> (exists n, In n (map fst series) /\ In n columns) ->
  (forall r c, In r data -> CellOf columns r "thresh_i" c -> exists q, c = CNum q) ->
  exists result, aggregate_eclv np_float "ctc" columns data series step add None = result /\
  (result = Err TypeError \/ exists out, result = Ok out) /\
  ((exists out, result = Ok out) <->
   forall p rows thresholds th a b c d, Combination series p -> Selection (OfCurve columns series p) data rows ->
     Thresholds columns rows thresholds -> In th thresholds -> Totals columns rows a b c d -> Both a b c d).
Proof. exact C61_defined_proof. Qed.
Print Assumptions C61_defined.

(** C61 fails for one curve without data: no curve is calculated at all. *)
Theorem C61_empty_curve_refuted : forall np_float columns data series step add p,
  CountTable columns data -> data <> [] -> 0 < step -> (exists n, In n (map fst series) /\ In n columns) -> ~ In "thresh_i" columns ->
  Combination series p -> Selection (OfCurve columns series p) data [] ->
  aggregate_eclv np_float "ctc" columns data series step add None = Err TypeError.
Proof. exact C61_empty_curve_refuted_proof. Qed.
Print Assumptions C61_empty_curve_refuted.
Example C61_empty_curve_case :
  Combination [("model", ["A"; "C"])] ["C"] /\ Selection (OfCurve eclv_columns [("model", ["A"; "C"])] ["C"]) eclv_data [] /\
  aggregate_eclv false "ctc" eclv_columns eclv_data [("model", ["A"; "C"])] (1 # 4) None None = Err TypeError.
Proof. exact C61_empty_curve_case_proof. Qed.

(** C61 fails for groups: rows with a member of a value with a colon do not count for it, and without rows that have the whole text
    there is no output. *)
Theorem C61_groups_refuted : forall np_float columns data series step add p n v,
  CountTable columns data -> data <> [] -> 0 < step -> In n columns -> ~ In "thresh_i" columns ->
  Combination series p -> In (n, v) (combine (map fst series) p) -> Has ":" v ->
  (forall r, In r data -> ~ CellOf columns r n (CStr v)) ->
  aggregate_eclv np_float "ctc" columns data series step add None = Err TypeError.
Proof. exact C61_groups_refuted_proof. Qed.
Print Assumptions C61_groups_refuted.
Example C61_groups_case :
  (forall r, In r eclv_data -> ~ CellOf eclv_columns r "model" (CStr "A:B")) /\ In "model" eclv_columns /\ ~ In "thresh_i" eclv_columns /\
  aggregate_eclv false "ctc" eclv_columns eclv_data [("model", ["A:B"])] (1 # 4) None None = Err TypeError.
Proof. exact C61_groups_case_proof. Qed.

(** C61 fails for the base rate: whether it is asked for or not, the output is the same. *)
Theorem C61_base_rate_refuted : forall np_float line_type columns data series step add boot,
  aggregate_eclv np_float line_type columns data series step add boot = aggregate_eclv np_float line_type columns data series step None boot.
Proof. exact C61_base_rate_refuted_proof. Qed.
Print Assumptions C61_base_rate_refuted.

(** C61 fails for probabilities: with a numpy without [np.float] every run with rows for the first combination
    raises an AttributeError. *)
Theorem C61_probabilities_refuted : forall columns data series step add boot p rest rows,
  Rectangular data columns -> 0 < step -> (forall n, In n ["thresh_i"; "oy_i"; "on_i"] -> In n columns) ->
  (exists n, In n (map fst series) /\ In n columns) ->
  (forall r c, In r data -> CellOf columns r "thresh_i" c -> exists q, c = CNum q) ->
  combinations (map snd series) = p :: rest -> Selection (OfCurve columns series p) data rows -> rows <> [] ->
  aggregate_eclv false "pct" columns data series step add boot = Err AttributeError.
Proof. exact C61_probabilities_refuted_proof. Qed.
Print Assumptions C61_probabilities_refuted.
Example C61_probabilities_case :
  aggregate_eclv false "pct" ["model"; "thresh_i"; "oy_i"; "on_i"] [[CStr "A"; CNum (1 # 2); CNum 3; CNum 4]] [("model", ["A"])] (1 # 4) None None
  = Err AttributeError.
Proof. exact C61_probabilities_case_proof. Qed.

(** C61 fails for the limits: there are none, with or without bootstrap, and with the pivotal method there is no
    output at all. *)
Theorem C61_limits_refuted : forall np_float columns data series step add boot out,
  CountTable columns data -> data <> [] -> 0 < step ->
  aggregate_eclv np_float "ctc" columns data series step add boot = Ok out ->
  Forall (fun o => stat_btcl o = None /\ stat_btcu o = None) out /\
  (forall samples, boot = Some (samples, Pivotal) -> out = []).
Proof. exact C61_limits_refuted_proof. Qed.
Print Assumptions C61_limits_refuted.
Example C61_limits_case :
  exists out, aggregate_eclv false "ctc" eclv_columns eclv_data [("model", ["A"; "B"])] (1 # 4) None
                (Some (fun d => [d; rev d; tl d; d], Perc)) = Ok out /\ length out = 6%nat.
Proof. exact C61_limits_case_proof. Qed.

(** C61: other line types, a step of zero, and requests of which no variable is a column raise; a table without
    rows gives no output. *)
Theorem C61_exceptions :
  (forall np columns data series step add boot lt, ~ step == 0 -> lt <> "ctc" -> lt <> "pct" ->
     aggregate_eclv np lt columns data series step add boot = Err KeyError) /\
  (forall np columns data series step add boot lt, step == 0 ->
     aggregate_eclv np lt columns data series step add boot = Err ZeroDivisionError) /\
  (forall np columns data series step add boot lt, ~ step == 0 -> In lt ["ctc"; "pct"] -> data <> [] ->
     combinations (map snd series) <> [] -> (forall n, In n (map fst series) -> ~ In n columns) ->
     aggregate_eclv np lt columns data series step add boot = Err KeyError) /\
  (forall np columns series step add boot lt, ~ step == 0 -> In lt ["ctc"; "pct"] ->
     aggregate_eclv np lt columns [] series step add boot = Ok []).
Proof. exact C61_exceptions_proof. Qed.
Print Assumptions C61_exceptions.
