(** The driver of aggregated statistics: metcalcpy/agg_stat.py, [_proceed_with_axis] and what it calls.
    Not modelled: line type 'pct' (the columns T, oy_total, o_bar), reading and writing of files.  The
    table is read from a text file, so a cell is a number, a text or missing. *)
From Coq Require Import Ascii Qabs.
From Verif Require Import PyBase ColumnModel EventModel UtilModel BootModel.
From Verif Require RocModel SumModel AggModel.
From Coq Require Import List.
Open Scope string_scope.

(** ** Texts *)
(** [c in s] for one character. *)
Fixpoint has_char (c : ascii) (s : string) : bool :=
  match s with EmptyString => false | String a t => Ascii.eqb a c || has_char c t end.
(** [str.lower()] on ASCII letters. *)
Definition lower_char (c : ascii) : ascii :=
  let n := nat_of_ascii c in
  if Nat.leb 65 n && Nat.leb n 90 then ascii_of_nat (n + 32) else c.
Fixpoint lower (s : string) : string :=
  match s with EmptyString => "" | String c t => String (lower_char c) (lower t) end.

(** The text before and after the first '.'. *)
Fixpoint cut_dot (s : string) : option (string * string) :=
  match s with
  | EmptyString => None
  | String c t =>
      if Ascii.eqb c "." then Some ("", t)
      else match cut_dot t with Some (a, b) => Some (String c a, b) | None => None end
  end.
(** utils.py 99-113, [is_string_strictly_float], and [float] of such a text.  Simplification: decimal
    digits are the ASCII ones, the number is exact. *)
Definition unsigned_float (s : string) : option Q :=
  match cut_dot s with
  | None => None
  | Some (a, b) =>
      match unsigned_value (a ++ b) with
      | Some z => Some (z # pow10 (String.length b))
      | None => None
      end
  end.
Definition strict_float (s : string) : option Q :=
  match s with
  | String "-" rest => match unsigned_float rest with Some q => Some (- q) | None => None end
  | _ => unsigned_float s
  end.

(** ** Filters of a point *)
(** A value of a filter list: the texts of numbers have become numbers. *)
Inductive wanted : Type := WNum (q : Q) | WText (s : string).
(** agg_stat.py 1030-1034 *)
Definition want (s : string) : wanted :=
  match parse_int s with
  | Some z => WNum (inject_Z z)
  | None => match strict_float s with Some q => WNum q | None => WText s end
  end.
(** agg_stat.py 1022-1029 *)
Definition filter_list (filter_value : string) : list wanted :=
  map want (if has_char ":" filter_value then ungroup filter_value
            else if has_char ";" filter_value then split_on ";" filter_value
            else [filter_value]).
(** [series.isin(filter_list)]: numbers equal numbers, texts equal texts, a missing cell is in no list. *)
Definition wanted_is (c : cell) (w : wanted) : bool :=
  match c, w with
  | CNum q, WNum p => Qeq_bool q p
  | CStr s, WText t => String.eqb s t
  | _, _ => false
  end.
Definition isin (ws : list wanted) (c : cell) : bool := existsb (wanted_is c) ws.

(** agg_stat.py 1019-1051: the filters of a point.  [names] are the fields, [fcst_vars] the keys of
    fcst_var_val, of which only the first is used. *)
Definition point_filters (columns names point fcst_vars : list string) : list (string * list wanted) :=
  (flat_map (fun fv => if mem (fst fv) columns then [(fst fv, filter_list (snd fv))] else []) (combine names point)
   ++ match fcst_vars with
      | v :: _ => if mem "fcst_var" columns then [("fcst_var", [WText v])] else []
      | [] => []
      end)%list.
(** agg_stat.py 1053-1055: rows that pass all filters, with their index labels.  Without any filter the
    mask is the single value True, and [loc[True]] is a KeyError. *)
Definition passes (columns : list string) (filters : list (string * list wanted)) (r : row) : res bool :=
  bs <- mapM (fun fw => c <- get columns r (fst fw) ;; Ok (isin (snd fw) c)) filters ;;
  Ok (forallb (fun b => b) bs).
Definition point_data (columns : list string) (filters : list (string * list wanted)) (data : tdata)
  : res (list (nat * row)) :=
  match filters with
  | [] => Err KeyError
  | _ => bs <- mapM (passes columns filters) data ;; Ok (mask bs (combine (seq 0 (length data)) data))
  end.

(** agg_stat.py 1079-1088: joined values ("A;B").  The test of line 1081 looks at the names of the series
    variables, not at their values.  [indy_val] is the value of the independent variable if that is a
    column. *)
Definition join_values (line_type : string) (columns names point : list string) (series : list (string * list string))
  (indy : string) (pd : list (nat * row)) : res (list (nat * row)) :=
  let indy_val := if mem indy columns then AggModel.assoc indy (combine names point) else None in
  if existsb (has_char ";") (map fst series) then
    SumModel.aggregate_field_values series columns pd line_type
  else match indy_val with
       | Some v => if has_char ";" v
                   then SumModel.aggregate_field_values (dict_set indy [v] series) columns pd line_type
                   else Ok pd
       | None => Ok pd
       end.

(** ** Sorting, utils.py 1333-1351 *)
Definition time_column (columns : list string) : string :=
  if mem "fcst_valid_beg" columns then "fcst_valid_beg"
  else if mem "fcst_valid" columns then "fcst_valid"
  else if mem "fcst_init_beg" columns then "fcst_init_beg"
  else "fcst_init".
Definition sort_fields (columns : list string) : list string :=
  ([time_column columns; "fcst_lead"] ++ if mem "stat_name" columns then ["stat_name"] else [])%list.
(** Missing values come last. *)
Definition cell_cmp (a b : cell) : comparison :=
  match a, b with
  | CNum x, CNum y => Qcompare x y
  | CStr x, CStr y => String.compare x y
  | CMiss, CMiss => Eq
  | CMiss, _ => Gt
  | _, CMiss => Lt
  | CNum _, CStr _ => Lt
  | CStr _, CNum _ => Gt
  end.
Fixpoint keys_cmp (a b : list cell) : comparison :=
  match a, b with
  | x :: a', y :: b' => match cell_cmp x y with Eq => keys_cmp a' b' | c => c end
  | _, _ => Eq
  end.
Definition keys_le (a b : list cell) : bool := match keys_cmp a b with Gt => false | _ => true end.
(** A column with both numbers and texts is not modelled. *)
Definition same_kind (a b : cell) : bool :=
  match a, b with CNum _, CStr _ | CStr _, CNum _ => false | _, _ => true end.
Definition one_kind (keys : list (list cell)) : bool :=
  forallb (fun a => forallb (fun b => forallb (fun xy => same_kind (fst xy) (snd xy)) (combine a b)) keys) keys.
(** [sort_values] with several keys is stable; KeyError for a missing column. *)
Definition sort_data (columns : list string) (rows : tdata) : res tdata :=
  keys <- mapM (fun r => mapM (get columns r) (sort_fields columns)) rows ;;
  if one_kind keys
  then Ok (map snd (RocModel.sort_by (fun a b => keys_le (fst a) (fst b)) (combine keys rows)))
  else Err NotModelled.

(** ** The statistic *)
(** What the driver calls: preparation of the rows for the line type (agg_stat.py 406-606; it keeps the
    rows, their order and the columns of time, lead and statistic), the statistic of all rows (237-281),
    the bootstrapped statistic (bootstrap.py), the statistic of one row (agg_stat.py 716), the bootstrapped
    derived statistic with its distribution, and the equivalence test (utils.py 172-181).  The first
    argument is the statistic's name in lower case. *)
Record engine : Type := Engine {
  prep : string -> tdata -> res tdata;
  calc : string -> tdata -> res pyval;
  boot : string -> tdata -> res results;
  calc_row : string -> row -> res pyval;
  boot_derived : string -> string -> tdata -> tdata -> res (results * list pyval);
  equivalence : list Q -> list Q -> res unit
}.

(** A result with the rows it was calculated from (saved for derived curves only). *)
Record point_result : Type := PointResult { outcome : results; saved : option tdata }.
Definition nothing : results := BootstrapResults None None None.

(** agg_stat.py 773-838; [single] is num_iterations == 1.  A KeyError of the bootstrap is caught. *)
Definition get_bootstrapped_stats (e : engine) (single has_derived : bool) (columns : list string)
  (statistic : string) (rows : tdata) : res point_result :=
  match rows with
  | [] => Ok (PointResult nothing None)
  | _ =>
      sorted <- sort_data columns rows ;;
      data <- prep e statistic sorted ;;
      let keep := if has_derived then Some data else None in
      if single then
        v <- calc e statistic data ;; Ok (PointResult (BootstrapResults None v None) keep)
      else match boot e statistic data with
           | Ok r => Ok (PointResult r keep)
           | Err KeyError => Ok (PointResult nothing None)
           | Err x => Err x
           end
  end.

(** ** Derived curves *)
(** agg_stat.py 44-56: the components of the two series and the operation. *)
Record derived_component : Type := DerivedComponent {
  first_component : list string; second_component : list string; derived_operation : string }.

(** First position at which the two lists differ; IndexError if the second one is too short. *)
Fixpoint first_difference (a b : list string) : res (option (string * string)) :=
  match a, b with
  | [], _ => Ok None
  | _ :: _, [] => Err IndexError
  | x :: a', y :: b' => if String.eqb x y then first_difference a' b' else Ok (Some (x, y))
  end.
(** agg_stat.py 936-944: the variable of the operation.  Without series variables: IndexError. *)
Definition operation_variable (series : list (string * list string)) (differ : option (string * string)) : res string :=
  match rev series with
  | [] => Err IndexError
  | (last, _) :: _ =>
      Ok (match differ with
          | None => last
          | Some (x, y) =>
              match find (fun nv => mem x (snd nv) && mem y (snd nv)) series with
              | Some (n, _) => n
              | None => last
              end
          end)
  end.
(** agg_stat.py 924-965: one derived series: its curve, its components and its points.  Lines 949-953
    compare an intersection with itself, so every other variable is reduced to the values named in the
    first series. *)
Definition derived_points_of (series : list (string * list string)) (indy : string) (indy_vals : list string)
  (derived_serie : list string) : res (string * derived_component * list (list string)) :=
  match derived_serie with
  | a :: b :: _ =>
      let ds_1 := split_on " " a in
      let ds_2 := split_on " " b in
      differ <- first_difference ds_1 ds_2 ;;
      var <- operation_variable series differ ;;
      name <- get_derived_curve_name derived_serie ;;
      let reduced := map (fun nv => if String.eqb (fst nv) var then (fst nv, [name])
                                    else (fst nv, filter (fun v => mem v ds_1) (snd nv))) series in
      let with_indy := match indy_vals with [] => reduced | _ => dict_set indy indy_vals reduced end in
      let s1 := last ds_1 "" in
      let s2 := last ds_2 "" in
      let with_stat := dict_set "stat_name" [if String.eqb s1 s2 then s1 else s1 ++ "," ++ s2] with_indy in
      Ok (name, DerivedComponent ds_1 ds_2 (last derived_serie ""), product (map snd with_stat))
  | _ => Err IndexError
  end.
(** agg_stat.py 913-967; [known] is derived_name_to_values, which is kept between the axes. *)
Fixpoint get_derived_points (series : list (string * list string)) (indy : string) (indy_vals : list string)
  (derived : list (list string)) (known : list (string * derived_component))
  : res (list (string * derived_component) * list (list string)) :=
  match derived with
  | [] => Ok (known, [])
  | d :: rest =>
      x <- derived_points_of series indy indy_vals d ;;
      y <- get_derived_points series indy indy_vals rest (dict_set (fst (fst x)) (snd (fst x)) known) ;;
      Ok (fst y, (snd x ++ snd y)%list)
  end.

(** agg_stat.py 624-630: the name of the derived curve is sought among the components of the point. *)
Definition derived_name (series : list string) : string :=
  fold_left (fun acc op =>
    match find (fun c => starts_with (op ++ "(") c || starts_with (op ++ " (") c) series with
    | Some c => c
    | None => acc
    end) (map fst OPERATION_TO_SIGN) "".
(** agg_stat.py 632-652: the components of one of the two series, with the other components of the
    derived point; names of groups are replaced. *)
Definition permuted (group_to_value : list (string * string)) (component series : list string) : list string :=
  map (fun x => match AggModel.assoc x group_to_value with Some v => v | None => x end)
    (fold_left (fun acc c => if mem c acc then acc else (acc ++ [c])%list) (tl series) component).
(** agg_stat.py 654-664: the results of the points all of whose components occur.  A result found earlier
    is replaced as long as the other one is missing. *)
Fixpoint find_pair {A : Type} (dist : list (list string * A)) (perm1 perm2 : list string)
  (ds_1 ds_2 : option A) : option A * option A :=
  match dist with
  | [] => (ds_1, ds_2)
  | (key, r) :: rest =>
      let d1 := if forallb (fun x => mem x perm1) key then Some r else ds_1 in
      let d2 := if forallb (fun x => mem x perm2) key then Some r else ds_2 in
      match d1, d2 with
      | Some _, Some _ => (d1, d2)
      | _, _ => find_pair rest perm1 perm2 d1 d2
      end
  end.
(** agg_stat.py 674-689: the number of values in the groups.  Every ':' counts, those of a date as well. *)
Definition num_diff_vals (perm : list string) : nat :=
  let n := fold_right (fun v acc => let size := length (split_on ":" v) in
                                    (if Nat.ltb 1 size then size else 0) + acc)%nat 0%nat perm in
  if Nat.eqb n 0 then 1 else n.

(** agg_stat.py 840-889.  A missing column is an IndexError.  Missing values and columns with both numbers
    and texts are not modelled.  Line 886 asks whether a list is one of two texts, which is never so:
    nothing is exempted. *)
Definition same_keys (a b : list cell) : bool := match keys_cmp a b with Eq => true | _ => false end.
Fixpoint distinct_keys (l : list (list cell)) : list (list cell) :=
  match l with
  | [] => []
  | x :: t => x :: filter (fun y => negb (same_keys x y)) (distinct_keys t)
  end.
Definition validate (columns : list string) (rows : tdata) (num_diff : nat) : res unit :=
  match index_of "fcst_lead" columns, index_of "stat_name" columns, index_of (time_column columns) columns with
  | Some li, Some si, Some ti =>
      keys <- mapM (fun r => mapM (fun i => cell_at i r) [ti; li; si]) rows ;;
      if one_kind keys && forallb (forallb (fun c => match c with CMiss => false | _ => true end)) keys then
        if Nat.eqb (length rows) (num_diff * length (distinct_keys keys)) then Ok tt else Err NameError
      else Err NotModelled
  | _, _, _ => Err IndexError
  end.

(** utils.py 378-434 with values that may be None. *)
Definition adjusted (v1 v2 : pyval) (statistic : string) (pval : Q) : res pyval :=
  match v1, v2 with
  | Some a, Some b => Ok (perfect_score_adjustment a b statistic pval)
  | _, _ =>
      let s := upper statistic in
      if mem s na_perf_score_stats then Ok None
      else if mem s zero_perf_score_stats || mem s one_perf_score_stats then Err TypeError
      else Ok (Some pval)
  end.
Definition qmean (l : list Q) : Q := fold_right Qplus 0 l / inject_Z (Z.of_nat (length l)).
(** agg_stat.py 759-769: the significance of a difference; [distributions] is None when the bootstrap
    failed with a KeyError (iterating over it is a TypeError). *)
Definition significance (v1 v2 : pyval) (statistic : string) (value : pyval) (distributions : option (list pyval)) : res pyval :=
  match distributions with
  | None => Err TypeError
  | Some dist =>
      match not_none dist, value with
      | [], _ | _, None => Ok None
      | l, Some v =>
          let m := qmean l in
          adjusted v1 v2 statistic
            (qmean (map (fun d => if Qle_bool (Qabs (d - m)) (Qabs v) then 1 else 0) l))
      end
  end.

(** agg_stat.py 703-734: without bootstrap.  The statistics of single rows for 'ETB' are None where they
    cannot be calculated; if there is no column stat_value the two lists are empty.  The result of the
    equivalence test is a dictionary, and [stat_val[0]] a KeyError.  Simplification: the column stat_value
    of the saved rows, into which the statistics of the single rows are written, is not followed. *)
Definition derived_one (e : engine) (columns : list string) (statistic operation : string)
  (r1 r2 : point_result) (v1 v2 : tdata) : res pyval :=
  lists <- (if String.eqb operation "ETB" then
              s1 <- mapM (calc_row e statistic) v1 ;;
              s2 <- mapM (calc_row e statistic) v2 ;;
              Ok (if mem "stat_value" columns then (s1, s2) else ([], []))
            else Ok ([value (outcome r1)], [value (outcome r2)])) ;;
  d <- calc_derived_curve_value (equivalence e) (Some (fst lists)) (Some (snd lists)) operation ;;
  match d with
  | Undefined => Ok None
  | Values (x :: _) => Ok (Some (round_half_up x 5))
  | Values [] => Err IndexError
  | Equivalence _ => Err KeyError
  end.
(** agg_stat.py 735-758: with bootstrap; the rows of both series are put side by side (ValueError if their
    numbers differ).  The distribution is saved for 'DIFF_SIG' only. *)
Definition derived_boot (e : engine) (statistic operation : string) (v1 v2 : tdata)
  : res (results * option (list pyval)) :=
  if Nat.eqb (length v1) (length v2) then
    match boot_derived e statistic operation v1 v2 with
    | Ok (r, d) => Ok (r, if String.eqb operation "DIFF_SIG" then Some d else None)
    | Err KeyError => Ok (nothing, None)
    | Err x => Err x
    end
  else Err ValueError.

(** agg_stat.py 608-771, [_get_bootstrapped_stats_for_derived]. *)
Definition get_bootstrapped_stats_for_derived (e : engine) (single : bool) (columns : list string)
  (group_to_value : list (string * string)) (known : list (string * derived_component)) (statistic : string)
  (series : list string) (dist : list (list string * point_result)) : res results :=
  comp <- lookup (derived_name series) known ;;
  let perm1 := permuted group_to_value (first_component comp) series in
  let perm2 := permuted group_to_value (second_component comp) series in
  let '(ds_1, ds_2) := find_pair dist perm1 perm2 None None in
  match ds_1 with
  | None => Err AttributeError
  | Some r1 =>
      match saved r1 with
      | None => Ok nothing
      | Some v1 =>
          match ds_2 with
          | None => Err AttributeError
          | Some r2 =>
              match saved r2 with
              | None => Ok nothing
              | Some v2 =>
                  match v1, v2 with
                  | [], _ | _, [] => Ok nothing
                  | _, _ =>
                      let op := derived_operation comp in
                      _ <- (if String.eqb op "SINGLE" then Ok tt else
                              _ <- validate columns v1 (num_diff_vals perm1) ;;
                              validate columns v2 (num_diff_vals perm2)) ;;
                      out <- (if single || String.eqb op "ETB" then
                                v <- derived_one e columns statistic op r1 r2 v1 v2 ;;
                                Ok (BootstrapResults None v None, Some [v])
                              else derived_boot e statistic op v1 v2) ;;
                      if String.eqb op "DIFF_SIG" then
                        v <- significance (value (outcome r1)) (value (outcome r2)) statistic (value (fst out)) (snd out) ;;
                        Ok (Results (lower_bound (fst out)) v (upper_bound (fst out)))
                      else Ok (fst out)
                  end
              end
          end
      end
  end.

(** ** The loop over the points *)
(** The parameters of one axis.  [fcst_vars] are the names of the forecast variables. *)
Record request : Type := Request {
  series_val : list (string * list string);
  indy_var : string;
  indy_vals : list string;
  list_stat : list string;
  derived_series : list (list string);
  fcst_vars : list string
}.

(** A row of the output: the fields of the point, the forecast variable, value and limits, number of rows. *)
Record out_row : Type := OutRow {
  point_of : list (string * string);
  fcst_var_of : option string;
  stat_of : results;
  nstats : nat
}.

(** agg_stat.py 988-993 *)
Definition all_fields_values (rq : request) : list (string * list string) :=
  dict_set "stat_name" (list_stat rq)
    (match indy_vals rq with [] => series_val rq | _ => dict_set (indy_var rq) (indy_vals rq) (series_val rq) end).

(** agg_stat.py 1008-1011: the last component that is a statistic; otherwise the statistic stays. *)
Definition statistic_of (stats point : list string) (statistic : string) : string :=
  match find (fun c => mem c stats) (rev point) with Some c => lower c | None => statistic end.

(** [point_to_distrib[point] = r]: an entry keeps its place. *)
Fixpoint dist_set {A : Type} (point : list string) (r : A) (d : list (list string * A))
  : list (list string * A) :=
  match d with
  | [] => [(point, r)]
  | (k, x) :: rest => if list_eq_dec string_dec k point then (k, r) :: rest else (k, x) :: dist_set point r rest
  end.

Section Axis.
Variable e : engine.
Variable single : bool.
Variable line_type : string.
Variable group_to_value : list (string * string).
Variable columns : list string.
Variable data : tdata.
Variable rq : request.
Let names := map fst (all_fields_values rq).
Let has_derived := match derived_series rq with [] => false | _ => true end.

(** agg_stat.py 1013-1093: a point that is not derived: result, number of rows, forecast variable.  Line
    1044 takes the column of every series variable: KeyError if there is none. *)
Definition plain_point (statistic : string) (point : list string) : res (point_result * nat * option string) :=
  _ <- (if forallb (fun n => mem n columns) (map fst (series_val rq)) then Ok tt else Err KeyError) ;;
  pd <- point_data columns (point_filters columns names point (fcst_vars rq)) data ;;
  pd' <- join_values line_type columns names point (series_val rq) (indy_var rq) pd ;;
  r <- get_bootstrapped_stats e single has_derived columns statistic (map snd pd') ;;
  Ok (r, length pd', hd_error (fcst_vars rq)).

(** agg_stat.py 1006-1112.  [fcst_var] is not bound before the first point that is not derived; a derived
    point gets the one of the last such point. *)
Fixpoint points_loop (known : list (string * derived_component)) (points : list (list string)) (statistic : string)
  (fcst_var : option (option string)) (dist : list (list string * point_result)) : res (string * list out_row) :=
  match points with
  | [] => Ok (statistic, [])
  | p :: rest =>
      let st := statistic_of (list_stat rq) p statistic in
      if is_derived_point (Some p) then
        r <- get_bootstrapped_stats_for_derived e single columns group_to_value known st p dist ;;
        match fcst_var with
        | None => Err UnboundLocalError
        | Some fv =>
            out <- points_loop known rest st fcst_var dist ;;
            Ok (fst out, OutRow (combine names p) fv r 0 :: snd out)
        end
      else
        x <- plain_point st p ;;
        let '(r, n, fv) := x in
        out <- points_loop known rest st (Some fv) (dist_set p r dist) ;;
        Ok (fst out, OutRow (combine names p) fv (outcome r) n :: snd out)
  end.

(** agg_stat.py 969-1112, [_proceed_with_axis]: the statistic and the derived curves that are known
    afterwards, and the rows of the output.  The columns fcst_var, stat_value, stat_btcl, stat_btcu and
    nstats of the output are assumed not to be fields. *)
Definition proceed_with_axis (statistic : string) (known : list (string * derived_component))
  : res (string * list (string * derived_component) * list out_row) :=
  match data with
  | [] => Ok (statistic, known, [])
  | _ =>
      let points := product (map snd (all_fields_values rq)) in
      dp <- (if has_derived then get_derived_points (series_val rq) (indy_var rq) (indy_vals rq) (derived_series rq) known
             else Ok (known, [])) ;;
      out <- points_loop (fst dp) (points ++ snd dp)%list statistic None [] ;;
      Ok (fst out, fst dp, snd out)
  end.
End Axis.

(** ** Both axes *)
(** Decimal text of a positive number, [str(i)]. *)
Fixpoint nat_text_fuel (fuel n : nat) (acc : string) : string :=
  match fuel with
  | O => acc
  | S f =>
      let s := String (ascii_of_nat (48 + Nat.modulo n 10)) acc in
      if Nat.ltb n 10 then s else nat_text_fuel f (Nat.div n 10) s
  end.
Definition nat_text (n : nat) : string := nat_text_fuel (S n) n "".
(** agg_stat.py 1134-1155: names for the values that are groups, numbered from one for each axis. *)
Definition group_names (prefix : string) (series : list (string * list string)) (known : list (string * string))
  : list (string * string) :=
  snd (fold_left (fun ik v => if has_char ":" v
                              then (S (fst ik), dict_set (prefix ++ nat_text (fst ik)) v (snd ik))
                              else ik)
         (flat_map snd series) (1%nat, known)).

(** agg_stat.py 1114-1162, [calculate_stats_and_ci] up to the output file, after event equalization (see
    EqzModel.v).  The second axis is calculated if it has series; the statistic of the object is None at
    first ('calculate_None' is no function). *)
Definition calculate_stats (e : engine) (single : bool) (line_type : string) (columns : list string) (data : tdata)
  (rq1 rq2 : request) : res (list out_row) :=
  let groups := group_names "Group_y2_" (series_val rq2) (group_names "Group_y1_" (series_val rq1) []) in
  a1 <- proceed_with_axis e single line_type groups columns data rq1 "None" [] ;;
  let '(st, known, out1) := a1 in
  match series_val rq2 with
  | [] => Ok out1
  | _ =>
      a2 <- proceed_with_axis e single line_type groups columns data rq2 st known ;;
      Ok (out1 ++ snd a2)%list
  end.
