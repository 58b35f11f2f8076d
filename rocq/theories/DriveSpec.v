(** Specification of the driver of aggregated statistics.  From DriveModel.v only the types of the interface
    are used: [request], [engine], [results], [out_row]. *)
From Coq Require Import Ascii Permutation Sorted Qabs.
From Verif Require Import PyBase ColumnModel BaseSpec EventSpec UtilSpec BootModel DriveModel.
From Coq Require Import List.
Open Scope string_scope.

(** ** Values and rows *)
(** A decimal fraction: digits with one point, at least one digit, an optional minus; and its value. *)
Definition Decimal (v : string) (q : Q) : Prop :=
  exists a b, Digits (String.length a) a /\ Digits (String.length b) b /\ a ++ b <> "" /\
    let x := inject_Z (decimal (a ++ b)) / inject_Z (10 ^ Z.of_nat (String.length b)) in
    (v = a ++ "." ++ b /\ q == x) \/ (v = "-" ++ a ++ "." ++ b /\ q == - x).
(** A cell has a value: whole numbers and decimal fractions ask for a number, other texts for the text. *)
Definition HasValue (v : string) (c : cell) : Prop :=
  (exists z q, WholeNumber v z /\ c = CNum q /\ q == inject_Z z) \/
  (exists p q, Decimal v p /\ c = CNum q /\ q == p) \/
  ((forall z, ~ WholeNumber v z) /\ (forall p, ~ Decimal v p) /\ c = CStr v).
(** A requested value and its members: a group ("A:B"), joined values ("A;B"), or a single value. *)
Definition Has (a : ascii) (s : string) : Prop := In a (list_ascii_of_string s).
Definition MembersOf (v : string) (l : list string) : Prop :=
  (Has ":" v /\ Group v l) \/
  (~ Has ":" v /\ Has ";" v /\ l <> [] /\ v = String.concat ";" l /\ Forall (fun m => ~ Has ";" m) l) \/
  (~ Has ":" v /\ ~ Has ";" v /\ l = [v]).
Definition HasMember (v : string) (c : cell) : Prop := exists l m, MembersOf v l /\ In m l /\ HasValue m c.

(** The row has the values of a point, as far as there are such columns, and belongs to the first
    forecast variable. *)
Definition OfPoint (columns : list string) (fields : list (string * list string)) (vars p : list string) (r : row) : Prop :=
  Forall2 (fun nv v => forall c, CellOf columns r (fst nv) c -> HasMember v c) fields p /\
  forall v rest c, vars = v :: rest -> CellOf columns r "fcst_var" c -> c = CStr v.

(** The fields of the points: series variables, independent variable, statistic. *)
Definition Fields (rq : request) (fields : list (string * list string)) : Prop :=
  NoDup (map fst fields) /\
  ((indy_vals rq <> [] /\ fields = series_val rq ++ [(indy_var rq, indy_vals rq); ("stat_name", list_stat rq)]) \/
   (indy_vals rq = [] /\ fields = series_val rq ++ [("stat_name", list_stat rq)]))%list.
(** All combinations, the last field varying fastest. *)
Fixpoint combinations (fields : list (list string)) : list (list string) :=
  match fields with
  | [] => [[]]
  | l :: rest => concat (map (fun v => map (fun p => v :: p) (combinations rest)) l)
  end.

(** ** Order of the rows *)
Inductive CellBefore : cell -> cell -> Prop :=
| before_num x y : x < y -> CellBefore (CNum x) (CNum y)
| before_text s t : String.ltb s t = true -> CellBefore (CStr s) (CStr t)
| before_missing c : c <> CMiss -> CellBefore c CMiss.
Inductive CellSame : cell -> cell -> Prop :=
| same_num x y : x == y -> CellSame (CNum x) (CNum y)
| same_text s : CellSame (CStr s) (CStr s)
| same_missing : CellSame CMiss CMiss.
(** Lexicographic order. *)
Inductive NotAfter : list cell -> list cell -> Prop :=
| notafter_nil : NotAfter [] []
| notafter_lt x y a b : CellBefore x y -> NotAfter (x :: a) (y :: b)
| notafter_eq x y a b : CellSame x y -> NotAfter a b -> NotAfter (x :: a) (y :: b).

(** The column of the time: the first of these that the table has. *)
Definition TimeField (columns : list string) (t : string) : Prop :=
  (t = "fcst_valid_beg" /\ In t columns) \/
  (t = "fcst_valid" /\ In t columns /\ ~ In "fcst_valid_beg" columns) \/
  (t = "fcst_init_beg" /\ In t columns /\ ~ In "fcst_valid_beg" columns /\ ~ In "fcst_valid" columns) \/
  (t = "fcst_init" /\ ~ In "fcst_valid_beg" columns /\ ~ In "fcst_valid" columns /\ ~ In "fcst_init_beg" columns).
(** The columns by which rows are sorted. *)
Definition SortFields (columns fields : list string) : Prop :=
  exists t, TimeField columns t /\
    ((In "stat_name" columns /\ fields = [t; "fcst_lead"; "stat_name"]) \/
     (~ In "stat_name" columns /\ fields = [t; "fcst_lead"])).
(** The cells of a row in some columns. *)
Definition CellsOf (columns fields : list string) (r : row) (cells : list cell) : Prop :=
  Forall2 (CellOf columns r) fields cells.
Definition SortKey (columns : list string) (r : row) (key : list cell) : Prop :=
  exists fields, SortFields columns fields /\ CellsOf columns fields r key.
(** A column has numbers or texts, and perhaps missing values. *)
Definition OneKind (columns : list string) (rows : tdata) (name : string) : Prop :=
  (forall r c, In r rows -> CellOf columns r name c -> c = CMiss \/ exists q, c = CNum q) \/
  (forall r c, In r rows -> CellOf columns r name c -> c = CMiss \/ exists s, c = CStr s).
(** [sorted] are the same rows in order of time, lead and statistic; rows with the same time, lead and
    statistic keep their order. *)
Definition InOrder (columns : list string) (rows sorted : tdata) : Prop :=
  Permutation rows sorted /\ (forall r, In r rows -> exists k, SortKey columns r k) /\
  StronglySorted (fun a b => exists ka kb, SortKey columns a ka /\ SortKey columns b kb /\ NotAfter ka kb) sorted /\
  forall key same, Selection (fun r => exists k, SortKey columns r k /\ Forall2 CellSame key k) rows same ->
                   Selection (fun r => exists k, SortKey columns r k /\ Forall2 CellSame key k) sorted same.

(** ** The result of a point *)
Definition Small (c d : ascii) : Prop :=
  let n := nat_of_ascii c in
  ((65 <= n <= 90)%nat -> nat_of_ascii d = (n + 32)%nat) /\ (~ (65 <= n <= 90)%nat -> d = c).
Definition InSmallLetters (s t : string) : Prop :=
  Forall2 Small (list_ascii_of_string s) (list_ascii_of_string t).

(** No value, no limits. *)
Definition NoResult : results := Results None None None.
(** The result that belongs to the rows of a point: without rows there is none; otherwise the statistic of
    the ordered and prepared rows, bootstrapped or not. *)
Inductive ResultOf (e : engine) (single : bool) (columns : list string) (statistic : string) : tdata -> results -> Prop :=
| result_none : ResultOf e single columns statistic [] NoResult
| result_single rows sorted prepared v :
    rows <> [] -> single = true -> InOrder columns rows sorted -> prep e statistic sorted = Ok prepared ->
    calc e statistic prepared = Ok v -> ResultOf e single columns statistic rows (Results None v None)
| result_boot rows sorted prepared r :
    rows <> [] -> single = false -> InOrder columns rows sorted -> prep e statistic sorted = Ok prepared ->
    boot e statistic prepared = Ok r -> ResultOf e single columns statistic rows r
| result_failed rows sorted prepared :
    rows <> [] -> single = false -> InOrder columns rows sorted -> prep e statistic sorted = Ok prepared ->
    boot e statistic prepared = Err KeyError -> ResultOf e single columns statistic rows NoResult.

(** The output row of a point that is not derived. *)
Definition RowOfPoint (e : engine) (single : bool) (columns : list string) (data : tdata) (rq : request)
  (fields : list (string * list string)) (p : list string) (o : out_row) : Prop :=
  point_of o = combine (map fst fields) p /\
  (fcst_vars rq = [] /\ fcst_var_of o = None \/ exists v rest, fcst_vars rq = v :: rest /\ fcst_var_of o = Some v) /\
  exists before stat st rows, p = (before ++ [stat])%list /\ InSmallLetters stat st /\
    Selection (OfPoint columns fields (fcst_vars rq) p) data rows /\
    nstats o = length rows /\ ResultOf e single columns st rows (stat_of o).

(** Requests without joined values for the independent variable, names of derived curves among the values,
    or semicolons in the names of the series variables. *)
Definition Plain (rq : request) (fields : list (string * list string)) : Prop :=
  (forall n vals v, In (n, vals) fields -> In v vals -> (exists l, MembersOf v l) /\ ~ DerivedName v) /\
  (forall n, In n (map fst (series_val rq)) -> ~ Has ";" n) /\
  (forall vals v, In (indy_var rq, vals) fields -> In v vals -> ~ Has ";" v).

(** ** Derived curves *)
(** The words of a series title. *)
Definition Words (s : string) (l : list string) : Prop :=
  l <> [] /\ s = String.concat " " l /\ Forall (fun w => ~ Has " " w) l.
(** Words and further components; names of groups stand for the groups. *)
Definition Named (groups : list (string * string)) (words point : list string) (x : string) : Prop :=
  exists w, (In w words \/ In w (tl point)) /\
    (In (w, x) groups \/ (~ In w (map fst groups) /\ x = w)).
(** Of all points only [p] has nothing but components that are named. *)
Definition OnlyPoint (fields : list (string * list string)) (N : string -> Prop) (p : list string) : Prop :=
  Combination fields p /\ Forall N p /\ forall q, Combination fields q -> Forall N q -> q = p.

(** The name of a derived curve. *)
Definition CurveName (a b op name : string) : Prop :=
  exists sign, In (op, sign) [("DIFF", "-"); ("RATIO", "/"); ("SS", " and "); ("DIFF_SIG", "-"); ("SINGLE", "-"); ("ETB", " and ")] /\
    name = op ++ "(" ++ a ++ sign ++ b ++ ")".
(** The first words in which two titles differ. *)
Definition FirstDifference (w1 w2 : list string) (x y : string) : Prop :=
  exists before r1 r2, (w1 = before ++ x :: r1 /\ w2 = before ++ y :: r2)%list /\ x <> y.
(** The variable of an operation: the first series variable that lists both of these words; the last
    series variable if none does (names of groups are not listed). *)
Definition OperationVariable (series : list (string * list string)) (w1 w2 : list string) (var : string) : Prop :=
  exists x y before vals after, FirstDifference w1 w2 x y /\ (series = before ++ (var, vals) :: after)%list /\
    let both (nv : string * list string) := In x (snd nv) /\ In y (snd nv) in
    Forall (fun nv => ~ both nv) before /\ (both (var, vals) \/ (~ both (var, vals) /\ after = [])).
(** A derived series: two titles and an operation, the words of the titles, the name of the curve and the
    variable of the operation. *)
Definition DerivedSeries (rq : request) (d : list string) (op : string) (w1 w2 : list string) (name var : string) : Prop :=
  exists a b, d = [a; b; op] /\ In op operations /\ Words a w1 /\ Words b w2 /\ CurveName a b op name /\
    OperationVariable (series_val rq) w1 w2 var /\ Forall (fun w => ~ DerivedName w) (w1 ++ w2)%list.
(** The statistic of a derived series: the last word of its titles, or both last words. *)
Definition DerivedStatistic (w1 w2 : list string) (stat : string) : Prop :=
  (last w1 "" = last w2 "" /\ stat = last w1 "") \/
  (last w1 "" <> last w2 "" /\ stat = last w1 "" ++ "," ++ last w2 "").
(** The values of the fields of its points: the name of the curve for the variable of the operation, the
    values named in the first title for other series variables, all independent values, and the statistic. *)
Definition DerivedFields (rq : request) (w1 w2 : list string) (name var : string) (lists : list (list string)) : Prop :=
  exists ser stat,
    Forall2 (fun nv l => (fst nv = var /\ l = [name]) \/ (fst nv <> var /\ Selection (fun v => In v w1) (snd nv) l)) (series_val rq) ser /\
    DerivedStatistic w1 w2 stat /\
    ((indy_vals rq = [] /\ lists = ser ++ [[stat]]) \/ (indy_vals rq <> [] /\ lists = ser ++ [indy_vals rq; [stat]]))%list.
(** What the output row of a point of a derived series says; [Value] is the claim about its result, given the
    output rows of the points of both series. *)
Definition DerivedRow (rq : request) (fields : list (string * list string)) (groups : list (string * string))
  (w1 w2 : list string) (plain : list out_row) (Value : list string -> list string -> out_row -> out_row -> results -> Prop)
  (dp : list string) (o : out_row) : Prop :=
  point_of o = combine (map fst fields) dp /\ nstats o = 0%nat /\
  (fcst_vars rq = [] /\ fcst_var_of o = None \/ exists v rest, fcst_vars rq = v :: rest /\ fcst_var_of o = Some v) /\
  forall p1 p2 o1 o2, OnlyPoint fields (Named groups w1 dp) p1 -> OnlyPoint fields (Named groups w2 dp) p2 ->
    In o1 plain -> point_of o1 = combine (map fst fields) p1 ->
    In o2 plain -> point_of o2 = combine (map fst fields) p2 -> Value p1 p2 o1 o2 (stat_of o).
(** The rows of all derived series. *)
Definition DerivedRows (rq : request) (fields : list (string * list string)) (groups : list (string * string)) (plain : list out_row)
  (Value : list string -> list string -> string -> list string -> list string -> list string -> out_row -> out_row -> results -> Prop)
  (rows : list (list out_row)) : Prop :=
  Forall2 (fun d out => exists op w1 w2 name var lists,
      DerivedSeries rq d op w1 w2 name var /\ DerivedFields rq w1 w2 name var lists /\
      Forall2 (fun dp => DerivedRow rq fields groups w1 w2 plain (Value w1 w2 op dp) dp) (combinations lists) out)
    (derived_series rq) rows.
(** The derived series of a request are meaningful, and different ones have different names. *)
Definition DerivedRequest (rq : request) : Prop :=
  derived_series rq <> [] /\
  (forall d, In d (derived_series rq) -> exists op w1 w2 name var, DerivedSeries rq d op w1 w2 name var) /\
  forall d d' op w1 w2 op' w1' w2' name var var', In d (derived_series rq) -> In d' (derived_series rq) ->
    DerivedSeries rq d op w1 w2 name var -> DerivedSeries rq d' op' w1' w2' name var' -> d = d'.

(** The value of a derived curve, to five decimals. *)
Inductive DerivedValue (op : string) : option Q -> option Q -> option Q -> Prop :=
| derived_no_first v : DerivedValue op None v None
| derived_no_second v : DerivedValue op v None None
| derived_difference a b w : op = "DIFF" -> Nearest 5 (a - b) w -> DerivedValue op (Some a) (Some b) (Some w)
| derived_ratio_zero a b : op = "RATIO" -> b == 0 -> DerivedValue op (Some a) (Some b) None
| derived_ratio a b w : op = "RATIO" -> ~ b == 0 -> Nearest 5 (a / b) w -> DerivedValue op (Some a) (Some b) (Some w)
| derived_skill_zero a b : op = "SS" -> a == 0 -> DerivedValue op (Some a) (Some b) None
| derived_skill a b w : op = "SS" -> ~ a == 0 -> Nearest 5 ((a - b) / a) w -> DerivedValue op (Some a) (Some b) (Some w)
| derived_first a b w : op = "SINGLE" -> Nearest 5 a w -> DerivedValue op (Some a) (Some b) (Some w).

(** The cases of rows: time, lead and statistic. *)
Definition CaseOf (columns : list string) (r : row) (key : list cell) : Prop :=
  exists t, TimeField columns t /\ CellsOf columns [t; "fcst_lead"; "stat_name"] r key /\ ~ In CMiss key.
Definition SameCase (columns : list string) (a b : row) : Prop :=
  exists ka kb, CaseOf columns a ka /\ CaseOf columns b kb /\ Forall2 CellSame ka kb.
(** No case occurs twice. *)
Definition DistinctCases (columns : list string) (rows : tdata) : Prop :=
  ForallOrdPairs (fun a b => ~ SameCase columns a b) rows.

(** The prepared rows of a point. *)
Definition Prepared (e : engine) (columns : list string) (data : tdata) (rq : request) (fields : list (string * list string))
  (p : list string) (prepared : tdata) : Prop :=
  exists before stat st rows sorted, p = (before ++ [stat])%list /\ InSmallLetters stat st /\
    Selection (OfPoint columns fields (fcst_vars rq) p) data rows /\ InOrder columns rows sorted /\ prep e st sorted = Ok prepared.
(** Preparing rows never removes all of them. *)
Definition KeepsRows (e : engine) : Prop :=
  forall st rows rows', rows <> [] -> prep e st rows = Ok rows' -> rows' <> [].
(** Preparing rows keeps their cases. *)
Definition KeepsCases (e : engine) (columns : list string) : Prop :=
  forall st rows rows', prep e st rows = Ok rows' ->
    Forall2 (fun r r' => forall key, CaseOf columns r key <-> CaseOf columns r' key) rows rows'.
(** Both tables have the same cases. *)
Definition SameCases (columns : list string) (rows1 rows2 : tdata) : Prop :=
  (forall a, In a rows1 -> exists b, In b rows2 /\ SameCase columns a b) /\
  (forall b, In b rows2 -> exists a, In a rows1 /\ SameCase columns a b).

(** ** Both axes *)
(** The decimal text of a positive number. *)
Definition NumberText (n : nat) (t : string) : Prop :=
  Digits (String.length t) t /\ decimal t = Z.of_nat n /\ forall rest, t <> "0" ++ rest.
(** The groups among the values of an axis, numbered from one. *)
Definition NumberedGroups (prefix : string) (series : list (string * list string)) (groups : list (string * string)) : Prop :=
  Selection (Has ":") (concat (map snd series)) (map snd groups) /\
  Forall2 (fun n g => exists t, NumberText n t /\ fst g = prefix ++ t) (seq 1 (length groups)) groups.

(** ** Counting *)
(** The row has listed values of all fields and belongs to the first forecast variable. *)
Definition Wanted (columns : list string) (fields : list (string * list string)) (vars : list string) (r : row) : Prop :=
  Forall (fun nv => forall c, CellOf columns r (fst nv) c -> exists v, In v (snd nv) /\ HasMember v c) fields /\
  forall v rest c, vars = v :: rest -> CellOf columns r "fcst_var" c -> c = CStr v.
(** Different listed values have no common member, and none is listed twice. *)
Definition Apart (fields : list (string * list string)) : Prop :=
  forall n vals, In (n, vals) fields -> NoDup vals /\
    forall v w c, In v vals -> In w vals -> HasMember v c -> HasMember w c -> v = w.

(** For examples: the sum of the last cells, negative for "neg"; two models and two leads. *)
Fixpoint sum_last (rows : tdata) : Q :=
  match rows with
  | [] => 0
  | r :: rest => (match last r CMiss with CNum q => q | _ => 0 end) + sum_last rest
  end.
Definition sum_of (st : string) (rows : tdata) : pyval :=
  Some (Qred (if String.eqb st "neg" then - sum_last rows else sum_last rows)).
Definition sum_engine : engine := Engine
  (fun _ rows => Ok rows) (fun st rows => Ok (sum_of st rows)) (fun st rows => Ok (Results (Some 0) (sum_of st rows) (Some 9)))
  (fun st r => Ok (sum_of st [r]))
  (fun st _ a b => Ok (Results None (sum_of st a) None, [sum_of st a; sum_of st b])) (fun _ _ => Ok tt).
Definition drive_columns : list string := ["fcst_valid_beg"; "fcst_lead"; "stat_name"; "model"; "fcst_var"; "x"].
Definition drive_row (t : string) (lead : Q) (m v : string) (x : Q) : row :=
  [CStr t; CNum lead; CStr "TOTAL"; CStr m; CStr v; CNum x].
Definition drive_data : tdata :=
  [drive_row "d2" 12 "A" "TMP" 5; drive_row "d1" 12 "A" "TMP" 7; drive_row "d1" 12 "B" "TMP" 1; drive_row "d2" 12 "B" "TMP" 1;
   drive_row "d1" 24 "A" "TMP" 3; drive_row "d1" 24 "B" "TMP" 4; drive_row "d1" 24 "B" "DPT" 9].
Definition drive_request : request :=
  Request [("model", ["A"; "B"])] "fcst_lead" ["12"; "24"] ["TOTAL"] [] ["TMP"].
Definition drive_fields : list (string * list string) :=
  [("model", ["A"; "B"]); ("fcst_lead", ["12"; "24"]); ("stat_name", ["TOTAL"])].
(** For examples: partial sums of two masks. *)
Definition mask_columns : list string :=
  ["fcst_valid_beg"; "fcst_lead"; "vx_mask"; "total"; "fbar"; "obar"; "fobar"; "ffbar"; "oobar"].
Definition mask_row (m : string) (total mean : Q) : row :=
  [CStr "d1"; CNum 12; CStr m; CNum total; CNum mean; CNum mean; CNum mean; CNum mean; CNum mean].
(** For examples: the difference of two models. *)
Definition curve_request : request :=
  Request [("model", ["A"; "B"])] "fcst_lead" ["12"; "24"] ["TOTAL"] [["A TOTAL"; "B TOTAL"; "DIFF"]] ["TMP"].
(** For examples: thresholds and leads that look alike. *)
Definition thresh_columns : list string := ["fcst_valid_beg"; "fcst_lead"; "stat_name"; "model"; "thresh"; "x"].
Definition thresh_row (m : string) (thresh lead x : Q) : row := [CStr "d1"; CNum lead; CStr "TOTAL"; CStr m; CNum thresh; CNum x].
Definition thresh_data : tdata :=
  [thresh_row "A" 12 12 1; thresh_row "A" 12 24 2; thresh_row "A" 24 12 3; thresh_row "A" 24 24 4;
   thresh_row "B" 12 12 10; thresh_row "B" 12 24 20; thresh_row "B" 24 12 30; thresh_row "B" 24 24 40].
Definition thresh_request : request :=
  Request [("model", ["A"; "B"]); ("thresh", ["12"; "24"])] "fcst_lead" ["12"; "24"] ["TOTAL"] [["A 12 TOTAL"; "B 12 TOTAL"; "DIFF"]] [].
Definition thresh_fields : list (string * list string) :=
  [("model", ["A"; "B"]); ("thresh", ["12"; "24"]); ("fcst_lead", ["12"; "24"]); ("stat_name", ["TOTAL"])].
