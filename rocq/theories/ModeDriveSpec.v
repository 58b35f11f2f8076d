(** Specification of the driver of bootstrapped statistics of objects.  From ModeDriveModel.v only the rows of the
    output are used; the limits of a distribution are the subject of C22. *)
From Coq Require Import Ascii Permutation Sorted.
From Verif Require Import PyBase ColumnModel BaseSpec EventSpec UtilSpec BootModel DriveModel DriveSpec ModeDriveModel.
From Coq Require Import List.
Open Scope string_scope.

(** The fields of the points: series variables, independent variable, statistic. *)
Definition ModeFields (rq : request) (fields : list (string * list string)) : Prop :=
  NoDup (map fst fields) /\
  fields = (series_val rq ++ [(indy_var rq, indy_vals rq); ("stat_name", list_stat rq)])%list.
(** A single value: neither a group nor joined values. *)
Definition SingleValue (v : string) : Prop := ~ Has ":" v /\ ~ Has ";" v.
(** A number, as a text. *)
Definition IsNumber (v : string) : Prop := (exists z, WholeNumber v z) \/ (exists q, Decimal v q).
(** The values of series variables are single values and not numbers; values of the independent variable are
    single values; no value and no statistic is listed twice. *)
Definition TextRequest (rq : request) : Prop :=
  (forall n vals, In (n, vals) (series_val rq) -> NoDup vals /\ forall v, In v vals -> SingleValue v /\ ~ IsNumber v) /\
  NoDup (indy_vals rq) /\ (forall v, In v (indy_vals rq) -> SingleValue v) /\ NoDup (list_stat rq).

(** The case of a row: its time and its value of the independent variable. *)
Definition ObjectCase (text : string -> cell -> string) (columns : list string) (indy : string) (r : row) (c : string) : Prop :=
  exists v i, CellOf columns r "fcst_valid" v /\ CellOf columns r indy i /\ c = text "fcst_valid" v ++ "#" ++ text indy i.

(** The result of the rows of a point: the statistic of the rows in order of time, and limits from the
    distribution of the statistics of samples.  The statistic of a sample is that of all rows whose case
    occurs in the sample. *)
Definition SampleRows (text : string -> cell -> string) (columns : list string) (indy : string) (sorted : tdata) (s : list string) (kept : tdata) : Prop :=
  Selection (fun r => exists c, ObjectCase text columns indy r c /\ In c s) sorted kept.
Inductive ModeResult (text : string -> cell -> string) (calc : string -> tdata -> res pyval)
  (bootstrap : option ((list string -> list (list string)) * ci_method))
  (columns : list string) (indy stat : string) (cases : list string) (rows : tdata) : results -> Prop :=
| mode_single sorted v : bootstrap = None -> InOrder columns rows sorted -> calc stat sorted = Ok v ->
    ModeResult text calc bootstrap columns indy stat cases rows (Results None v None)
| mode_boot samples method sorted v dist r : bootstrap = Some (samples, method) -> InOrder columns rows sorted -> calc stat sorted = Ok v ->
    Forall2 (fun s x => exists kept, SampleRows text columns indy sorted s kept /\ calc stat kept = Ok x) (samples cases) dist ->
    get_confidence_interval_and_value dist v 0.05 method = Ok r ->
    ModeResult text calc bootstrap columns indy stat cases rows r
| mode_failed samples method sorted : bootstrap = Some (samples, method) -> InOrder columns rows sorted ->
    calc stat sorted = Err KeyError \/
    (exists s kept, In s (samples cases) /\ SampleRows text columns indy sorted s kept /\ calc stat kept = Err KeyError) ->
    ModeResult text calc bootstrap columns indy stat cases rows NoResult.

(** The cases from which samples for a value of the independent variable are drawn, in ascending order: those of
    all points with this value or an earlier one. *)
Definition ModeCases (text : string -> cell -> string) (columns : list string) (data : tdata) (rq : request) (i : string) (cases : list string) : Prop :=
  StronglySorted (fun a b => String.ltb a b = true) cases /\
  forall c, In c cases <->
    exists before after j p r, (indy_vals rq = before ++ i :: after /\ In j (before ++ [i]))%list /\ Combination (series_val rq) p /\ In r data /\
      OfPoint columns (series_val rq ++ [(indy_var rq, indy_vals rq)]) [] (p ++ [j]) r /\ ObjectCase text columns (indy_var rq) r c.

(** An output row: number of rows and result of the statistic [stat]. *)
Definition Filled (text : string -> cell -> string) (calc : string -> tdata -> res pyval)
  (bootstrap : option ((list string -> list (list string)) * ci_method))
  (columns : list string) (data : tdata) (rq : request) (stat : string) (p : list string) (i : string) (o : mode_row) : Prop :=
  mode_var o = None /\
  exists st rows cases, InSmallLetters stat st /\
    Selection (OfPoint columns (series_val rq ++ [(indy_var rq, indy_vals rq)]) [] (p ++ [i])) data rows /\
    mode_nstats o = Some (length rows) /\ ModeCases text columns data rq i cases /\
    ModeResult text calc bootstrap columns (indy_var rq) st cases rows (mode_result o).
Definition Unfilled (o : mode_row) : Prop := mode_var o = None /\ mode_nstats o = None /\ mode_result o = NoResult.

(** The rows of an axis: one for every combination of values of the fields. *)
Definition ModeRows (fields : list (string * list string)) (Claim : list string -> string -> string -> mode_row -> Prop) (output : list mode_row) : Prop :=
  Forall2 (fun q o => mode_point o = combine (map fst fields) q /\
             exists p i s, q = (p ++ [i; s])%list /\ Claim p i s o) (combinations (map snd fields)) output.

(** For examples: objects of two models at two times. *)
Definition mode_columns : list string := ["model"; "fcst_lead"; "fcst_valid"; "fcst_var"; "object_id"].
Definition mode_line (m : string) (lead : Q) (t : string) (v : string) (x : Q) : row := [CStr m; CNum lead; CStr t; CStr v; CNum x].
Definition mode_data : tdata :=
  [mode_line "A" 12 "d2" "TMP" 5; mode_line "A" 12 "d1" "TMP" 3; mode_line "B" 12 "d1" "TMP" 1; mode_line "B" 12 "d2" "HGT" 2; mode_line "A" 24 "d1" "TMP" 7].
Definition mode_text (n : string) (c : cell) : string :=
  match c with CStr s => s | CNum q => if Qeq_bool q 12 then "12" else "24" | CMiss => "nan" end.
(** The number of rows. *)
Definition mode_count (st : string) (rows : tdata) : res pyval := Ok (Some (inject_Z (Z.of_nat (length rows)))).
Definition mode_request (models vars stats : list string) : request :=
  Request [("model", models)] "fcst_lead" ["12"; "24"] stats [] vars.
Definition no_series : request := Request [] "fcst_lead" ["12"; "24"] [] [] [].
