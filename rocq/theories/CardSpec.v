(** Specification of the driver of scorecards.  From CardModel.v only the cells of the output are used; the
    significance of a difference is the subject of C31. *)
From Coq Require Import Reals Qreals Permutation.
From Verif Require Import PyBase ColumnModel BaseSpec EventSpec UtilSpec BootModel ScoreModel DriveModel DriveSpec CardModel.
From Verif Require AggSpec SeriesSpec.
From Coq Require Import List.
Open Scope string_scope.

(** The fields of the points: series variables, statistic, independent variable. *)
Definition CardFields (rq : request) (fields : list (string * list string)) : Prop :=
  NoDup (map fst fields) /\
  ((indy_vals rq <> [] /\ fields = series_val rq ++ [("stat_name", list_stat rq); (indy_var rq, indy_vals rq)]) \/
   (indy_vals rq = [] /\ fields = series_val rq ++ [("stat_name", list_stat rq)]))%list.

(** The values of some rows, [None] where there is none. *)
Definition ValueOf (columns : list string) (r : row) (v : option Q) : Prop :=
  (exists q, v = Some q /\ CellOf columns r "stat_value" (CNum q)) \/ (v = None /\ CellOf columns r "stat_value" CMiss).
Definition ValuesOf (columns : list string) (rows : tdata) (vals : list (option Q)) : Prop := Forall2 (ValueOf columns) rows vals.

(** The arithmetic mean. *)
Definition mean (l : list Q) : Q := AggSpec.mean_of SeriesSpec.self l.

(** The score of a pair of series with values [v1], [v2], in order of time. *)
Inductive CardValue (cdf : Z -> R -> R) (emc : bool) (ndays : Z) (stats : list string) (op : string) : list (option Q) -> list (option Q) -> out -> Prop :=
| card_difference a b m : op = "DIFF" -> length a = length b -> m == mean (map (fun p => fst p - snd p) (combine a b)) ->
    CardValue cdf emc ndays stats op (map Some a) (map Some b) (OutNum (Q2R m))
| card_difference_missing v1 v2 : op = "DIFF" -> length v1 = length v2 -> In None v1 \/ In None v2 ->
    CardValue cdf emc ndays stats op v1 v2 OutNaN
| card_single a v2 m : op = "SINGLE" -> m == mean a -> CardValue cdf emc ndays stats op (map Some a) v2 (OutNum (Q2R m))
| card_single_missing v1 v2 : op = "SINGLE" -> In None v1 -> CardValue cdf emc ndays stats op v1 v2 OutNaN
| card_emc stat rest v1 v2 c : op = "DIFF_SIG" -> emc = true -> stats = stat :: rest ->
    calculate_diff_sig_emc ndays stat v1 v2 = Ok (Some c) -> CardValue cdf emc ndays stats op v1 v2 (OutNum (Q2R c))
| card_emc_none stat rest v1 v2 : op = "DIFF_SIG" -> emc = true -> stats = stat :: rest ->
    calculate_diff_sig_emc ndays stat v1 v2 = Ok None -> CardValue cdf emc ndays stats op v1 v2 OutNone
| card_ncar stat rest a b o : op = "DIFF_SIG" -> emc = false -> stats = stat :: rest ->
    calculate_diff_sig_ncar cdf stat a b = Ok o -> CardValue cdf emc ndays stats op (map Some a) (map Some b) o
| card_other v1 v2 : In op ["RATIO"; "SS"; "ETB"] -> CardValue cdf emc ndays stats op v1 v2 OutNone.

(** The columns that the output does not have. *)
Definition removed : list string := ["equalize"; "stat_ncl"; "stat_ncu"; "stat_bcl"; "stat_bcu"; "fcst_valid_beg"; "fcst_init_beg"].
(** The lead of an output row: the last listed lead that is a word of the first title; if there is none, the text
    of the lead of the row. *)
Definition LeadOf (columns : list string) (leads words : list string) (first : row) (x : card_cell) : Prop :=
  (exists before l after, leads = (before ++ l :: after)%list /\ In l words /\ Forall (fun k => ~ In k words) after /\ x = Given l) \/
  (Forall (fun k => ~ In k words) leads /\ exists c, CellOf columns first "fcst_lead" c /\ x = TextOf c).
(** An output row: the columns of the first row of the first series without some, with the name of the curve as
    model, the lead and the score. *)
Definition CardRow (columns : list string) (series : list (string * list string)) (words : list string) (name : string)
  (first : row) (score : out) (o : card_row) : Prop :=
  (exists kept, Selection (fun n => ~ In n removed) columns kept /\
     ((In "model" columns /\ map fst o = kept) \/ (~ In "model" columns /\ map fst o = (kept ++ ["model"])%list))) /\
  forall n x, In (n, x) o ->
    (n = "model" -> x = Given name) /\ (n = "stat_value" -> x = Score score) /\
    (n = "fcst_lead" -> exists leads, In ("fcst_lead", leads) series /\ LeadOf columns leads words first x) /\
    (~ In n ["model"; "stat_value"; "fcst_lead"] -> exists c, CellOf columns first n c /\ x = Kept c).

(** What the output says: for every derived series and every combination of its fields there is at most one
    row, and each title names a point.  [Claim] is about the rows of the table that belong to the two points named, and the rows of output. *)
Definition CardRows (columns : list string) (data : tdata) (rq : request) (fields : list (string * list string))
  (Claim : string -> list string -> string -> tdata -> tdata -> list card_row -> Prop) (output : list card_row) : Prop :=
  exists blocks, output = concat (concat blocks) /\
    Forall2 (fun d outs => exists op w1 w2 name var lists,
        DerivedSeries rq d op w1 w2 name var /\ DerivedFields rq w1 w2 name var lists /\
        Forall2 (fun dp o => (length o <= 1)%nat /\
            (forall w, w = w1 \/ w = w2 -> exists p, Combination fields p /\ Forall (Named [] w dp) p) /\
            forall p1 p2 rows1 rows2, OnlyPoint fields (Named [] w1 dp) p1 -> OnlyPoint fields (Named [] w2 dp) p2 ->
              Selection (OfPoint columns fields [] p1) data rows1 -> Selection (OfPoint columns fields [] p2) data rows2 ->
              Claim op w1 name rows1 rows2 o)
          (combinations lists) outs)
      (derived_series rq) blocks.

(** For examples: two models. *)
Definition card_columns : list string := ["model"; "fcst_lead"; "fcst_valid_beg"; "stat_name"; "vx_mask"; "stat_value"].
Definition card_line (m : string) (lead : Q) (t : string) (x : Q) : row := [CStr m; CNum lead; CStr t; CStr "RMSE"; CStr "NHX"; CNum x].
Definition card_data : tdata :=
  [card_line "A" 12 "d2" 5; card_line "A" 12 "d1" 3; card_line "B" 12 "d1" 1; card_line "B" 12 "d2" 2; card_line "A" 24 "d1" 7].
Definition card_request : request :=
  Request [("model", ["A"; "B"]); ("fcst_lead", ["12"; "24"])] "" [] ["RMSE"]
    [["A 12 RMSE"; "B 12 RMSE"; "DIFF"]; ["A 24 RMSE"; "B 24 RMSE"; "DIFF"]] [].
Definition card_fields : list (string * list string) :=
  [("model", ["A"; "B"]); ("fcst_lead", ["12"; "24"]); ("stat_name", ["RMSE"])].
