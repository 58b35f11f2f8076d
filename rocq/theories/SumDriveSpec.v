(** Specification of the driver of summary statistics. *)
From Coq Require Import Ascii.
From Verif Require Import PyBase ColumnModel BaseSpec EventSpec UtilSpec DriveSpec.
From Coq Require Import List.
Open Scope string_scope.

(** Line types and their fields, which the output does not have. *)
Definition line_fields : list (string * list string) :=
  [("ctc", ["total"; "fy_oy"; "fy_on"; "fn_oy"; "fn_on"]);
   ("nbrctc", ["total"; "fy_oy"; "fy_on"; "fn_oy"; "fn_on"]);
   ("sl1l2", ["total"; "fbar"; "obar"; "fobar"; "ffbar"; "oobar"]);
   ("sal1l2", ["total"; "fbar"; "obar"; "fobar"; "ffbar"; "oobar"]);
   ("vl1l2", ["total"; "ufbar"; "vfbar"; "uobar"; "vobar"; "uvfobar"; "uvffbar"; "uvoobar"; "f_speed_bar"; "o_speed_bar"]);
   ("val1l2", ["total"; "ufabar"; "vfabar"; "uoabar"; "voabar"; "uvfoabar"; "uvffabar"; "uvooabar"]);
   ("grad", ["total"; "fgbar"; "ogbar"; "mgbar"; "egbar"]);
   ("nbrcnt", ["total"; "fbs"; "fss"; "afss"; "ufss"; "f_rate"; "o_rate"]);
   ("ecnt", ["total"; "rmse"; "rmse_oerr"; "crps"]);
   ("rps", ["total"; "rpss"; "rps"; "rps_comp"]);
   ("pct", ["total"; "oy_i"; "on_i"; "thresh_i"])].
(** The names of columns in the calculation: those of anomalies are replaced. *)
Definition anomalies : list (string * string) :=
  [("fabar", "fbar"); ("oabar", "obar"); ("foabar", "fobar"); ("ffabar", "ffbar"); ("ooabar", "oobar")].
Definition NamesFor (line_type : string) (columns names : list string) : Prop :=
  (line_type <> "sal1l2" /\ names = columns) \/
  (line_type = "sal1l2" /\ Forall2 (fun c n => In (c, n) anomalies \/ (~ In c (map fst anomalies) /\ n = c)) columns names).

(** The statistic of a row, by the name in the row. *)
Definition StatisticOf (statistic : string -> option (list string -> tdata -> res pyval)) (names : list string) (r : row) (v : option Q) : Prop :=
  exists s st f, CellOf names r "stat_name" (CStr s) /\ InSmallLetters s st /\ statistic st = Some f /\ f names [r] = Ok v.
(** There is no such statistic, or it ends with a KeyError. *)
Definition NoStatistic (statistic : string -> option (list string -> tdata -> res pyval)) (names : list string) (r : row) : Prop :=
  ~ In "stat_name" names \/
  exists s st, CellOf names r "stat_name" (CStr s) /\ InSmallLetters s st /\
    (statistic st = None \/ exists f, statistic st = Some f /\ f names [r] = Err KeyError).

(** The output for rows with values; [None]: no value was calculated, and the row keeps its value, if any. *)
Definition ValueCell (v : option Q) (c : cell) : Prop := match v with Some q => c = CNum q | None => c = CMiss end.
Definition OutRow (names out : list string) (r : row) (v : option (option Q)) (o : row) : Prop :=
  length o = length out /\
  (forall n c, n <> "stat_value" -> In n out -> (CellOf out o n c <-> CellOf names r n c)) /\
  match v with
  | Some x => exists c, CellOf out o "stat_value" c /\ ValueCell x c
  | None => (forall c, In "stat_value" names -> (CellOf out o "stat_value" c <-> CellOf names r "stat_value" c)) /\
            (~ In "stat_value" names -> In "stat_value" out -> CellOf out o "stat_value" CMiss)
  end.
Definition SumTable (names fields : list string) (entries : list (row * option (option Q))) (out : list string) (output : list row) : Prop :=
  (exists full, Selection (fun n => n <> "equalize" /\ ~ In n fields) full out /\
     (((In "stat_value" names \/ Forall (fun e => snd e = None) entries) /\ full = names) \/
      (~ In "stat_value" names /\ ~ Forall (fun e => snd e = None) entries /\ full = (names ++ ["stat_value"])%list))) /\
  Forall2 (fun e o => OutRow names out (fst e) (snd e) o) entries output.

(** No group among the values of the independent variable and the names of the series variables. *)
Definition NoGroups (indys : list string) (series : list (string * list string)) : Prop :=
  (forall v, In v indys -> ~ Has ":" v) /\ (forall n, In n (map fst series) -> ~ Has ":" n).

(** The members of a group of series values. *)
Definition Parts (v : string) (l : list string) : Prop := l <> [] /\ v = String.concat ":" l /\ Forall (fun m => ~ Has ":" m) l.
(** The row has the values of a point, and the text [i] as value of the independent variable. *)
Definition OfSeries (names : list string) (series : list (string * list string)) (p : list string) (r : row) : Prop :=
  Forall2 (fun nv v => exists c l m, CellOf names r (fst nv) c /\ Parts v l /\ In m l /\ HasValue m c) series p.

(** For examples: lines of two models. *)
Definition sum_columns : list string := ["model"; "fcst_lead"; "fcst_valid_beg"; "stat_name"; "equalize"; "total"; "fbar"].
Definition sum_line (m : string) (lead : Q) (s : string) (total x : Q) : row := [CStr m; CNum lead; CStr "d1"; CStr s; CNum 1; CNum total; CNum x].
Definition sum_data : tdata := [sum_line "A" 12 "FBAR" 10 3; sum_line "B" 12 "FBAR" 20 5; sum_line "A" 24 "FBAR" 10 7].
(** The mean of a line. *)
Definition sum_fbar (columns : list string) (rows : tdata) : res pyval :=
  match rows with
  | [[_; _; _; _; _; _; CNum q]] => Ok (Some q)
  | _ => Err TypeError
  end.
Definition sum_statistic (s : string) : option (list string -> tdata -> res pyval) := if String.eqb s "fbar" then Some sum_fbar else None.
