(** The driver of summary statistics: metcalcpy/sum_stat.py.  Event equalization, reading and writing of files
    are not modelled here.  The table is read from a text file: a cell is a number, a text or missing; all values
    of the request are texts; the names of the columns are distinct. *)
From Coq Require Import Ascii.
From Verif Require Import PyBase ColumnModel EventModel UtilModel SumModel DriveModel.
From Verif Require AggModel.
From Coq Require Import List.
Open Scope string_scope.

(** sum_stat.py 105-120 *)
Definition STATISTIC_TO_FIELDS : list (string * list string) :=
  [("ctc", ["total"; "fy_oy"; "fy_on"; "fn_oy"; "fn_on"]);
   ("sl1l2", ["total"; "fbar"; "obar"; "fobar"; "ffbar"; "oobar"]);
   ("grad", ["total"; "fgbar"; "ogbar"; "mgbar"; "egbar"]);
   ("sal1l2", ["total"; "fbar"; "obar"; "fobar"; "ffbar"; "oobar"]);
   ("vl1l2", ["total"; "ufbar"; "vfbar"; "uobar"; "vobar"; "uvfobar"; "uvffbar"; "uvoobar"; "f_speed_bar"; "o_speed_bar"]);
   ("val1l2", ["total"; "ufabar"; "vfabar"; "uoabar"; "voabar"; "uvfoabar"; "uvffabar"; "uvooabar"]);
   ("pct", ["total"; "oy_i"; "on_i"; "thresh_i"]);
   ("nbrcnt", ["total"; "fbs"; "fss"; "afss"; "ufss"; "f_rate"; "o_rate"]);
   ("ecnt", ["total"; "rmse"; "rmse_oerr"; "crps"]);
   ("nbrctc", ["total"; "fy_oy"; "fy_on"; "fn_oy"; "fn_on"]);
   ("rps", ["total"; "rpss"; "rps"; "rps_comp"])].

(** sum_stat.py 131-138: new names of the columns of anomalies. *)
Definition rename_anomaly (n : string) : string :=
  match AggModel.assoc n [("fabar", "fbar"); ("oabar", "obar"); ("foabar", "fobar"); ("ffabar", "ffbar"); ("ooabar", "oobar")] with
  | Some m => m
  | None => n
  end.

(** A frame: columns, and rows with their index labels. *)
Definition table : Type := (list string * list (nat * row))%type.
(** [reset_index]. *)
Definition relabel (rows : list row) : list (nat * row) := combine (seq 0 (length rows)) rows.

Section SumDriver.
(** [globals()[f'calculate_{name}']], sum_stat.py 279-296: [None] if there is no such function. *)
Variable statistic : string -> option (list string -> tdata -> res pyval).

(** [df[df[name].isin(values)]]: KeyError if there is no such column. *)
Definition keep_rows (test : cell -> bool) (name : string) (tb : table) : res table :=
  match index_of name (fst tb) with
  | None => Err KeyError
  | Some i => rows <- filterM (fun x => c <- cell_at i (snd x) ;; Ok (test c)) (snd tb) ;; Ok (fst tb, rows)
  end.

(** sum_stat.py 209-222: rows of a point. *)
Fixpoint keep_point (names point : list string) (tb : table) : res table :=
  match names, point with
  | n :: names', v :: point' =>
      let vals := if has_char ";" v then split_on ";" v else split_on ":" v in
      tb' <- keep_rows (isin (map want vals)) n tb ;;
      keep_point names' point' tb'
  | _, _ => Ok tb
  end.

(** sum_stat.py 206-237: the points for one value of the independent variable.  [series] is the dictionary of
    the request, which line 231 changes. *)
Fixpoint sum_points (line_type indy indy_val : string) (names : list string) (tb : table) (points : list (list string))
  (series : list (string * list string)) (acc : table) : res (list (string * list string) * table) :=
  match points with
  | [] => Ok (series, acc)
  | p :: rest =>
      pd <- keep_point names p tb ;;
      let aggregate s := rows <- aggregate_field_values s (fst pd) (snd pd) line_type ;; Ok (s, (fst pd, rows)) in
      r <- (if existsb (has_char ";") p then aggregate series
            else if has_char ";" indy_val then aggregate (dict_set indy [indy_val] series)
            else Ok (series, pd)) ;;
      sum_points line_type indy indy_val names tb rest (fst r) (fst (snd r), snd acc ++ snd (snd r))%list
  end.
Fixpoint sum_indys (line_type indy : string) (names : list string) (tb : table) (points : list (list string)) (indys : list string)
  (series : list (string * list string)) (acc : table) : res table :=
  match indys with
  | [] => Ok acc
  | i :: rest =>
      filtered <- keep_rows (isin_text (split_on ";" i)) indy tb ;;
      r <- sum_points line_type indy i names filtered points series acc ;;
      sum_indys line_type indy names tb points rest (fst r) (snd r)
  end.

(** sum_stat.py 177-243, [aggregate_special_fields].  The tests of lines 192 and 196 look for the separator of
    groups in the values of the independent variable and in the names of the series variables.  [None]: the
    request has no series of this axis. *)
Definition aggregate_special_fields (line_type indy : string) (indys : list string) (series : option (list (string * list string)))
  (tb : table) : res table :=
  match series with
  | None => Err KeyError
  | Some s =>
      let special := existsb (has_char ":") indys || existsb (has_char ":") (map fst s) in
      match s with
      | [] => Ok tb
      | _ => if special then
               acc <- sum_indys line_type indy (map fst s) tb (product (map snd s)) indys s ([], []) ;;
               Ok (fst acc, relabel (map snd (snd acc)))
             else Ok tb
      end
  end.

(** sum_stat.py 245-261: the statistic of a row; [names] are the columns of the table that was read. *)
Definition row_value (names columns : list string) (r : row) : res pyval :=
  c <- get columns r "stat_name" ;;
  match c with
  | CStr s => match statistic (lower s) with Some f => f names [r] | None => Err KeyError end
  | _ => Err AttributeError
  end.
(** The values of the rows; [None] from the first row with a KeyError on, which ends the loop (line 158). *)
Fixpoint row_values (names columns : list string) (rows : list row) : res (list (option pyval)) :=
  match rows with
  | [] => Ok []
  | r :: rest =>
      match row_value names columns r with
      | Ok v => vs <- row_values names columns rest ;; Ok (Some v :: vs)
      | Err KeyError => Ok (map (fun _ => None) rows)
      | Err e => Err e
      end
  end.
Definition value_cell (v : pyval) : cell := match v with Some q => CNum q | None => CMiss end.
(** [input_data.at[index, 'stat_value'] = value]: a new last column if there is none. *)
Definition write_values (tb : table) (vs : list (option pyval)) : table :=
  match index_of "stat_value" (fst tb) with
  | Some i => (fst tb, map (fun xv => (fst (fst xv), match snd xv with
                                                     | Some v => AggModel.set_nth i (value_cell v) (snd (fst xv))
                                                     | None => snd (fst xv)
                                                     end)) (combine (snd tb) vs))
  | None =>
      if existsb (fun v => match v with Some _ => true | None => false end) vs
      then (fst tb ++ ["stat_value"], map (fun xv => (fst (fst xv), snd (fst xv) ++ [match snd xv with Some v => value_cell v | None => CMiss end]))
                                        (combine (snd tb) vs))%list
      else tb
  end.

(** [drop(column, axis=1)] *)
Definition drop_column (n : string) (tb : table) : table :=
  (filter (fun m => negb (String.eqb m n)) (fst tb),
   map (fun x => (fst x, map snd (filter (fun nc => negb (String.eqb (fst nc) n)) (combine (fst tb) (snd x))))) (snd tb)).
(** sum_stat.py 161-175.  A column of the table that was read but not of this one is a KeyError. *)
Fixpoint drop_fields (names fields : list string) (tb : table) : res table :=
  match fields with
  | [] => Ok tb
  | n :: rest =>
      if mem n names then (if mem n (fst tb) then drop_fields names rest (drop_column n tb) else Err KeyError)
      else drop_fields names rest tb
  end.
Definition finish (names fields : list string) (tb : table) : res (list string * list row) :=
  tb' <- drop_fields names fields tb ;;
  let tb'' := drop_column "equalize" tb' in
  Ok (fst tb'', map snd (snd tb'')).

(** sum_stat.py 122-175 with the constructor (79-103): a table without rows is a ValueError; a KeyError ends the
    calculation, and the table is written as it is then. *)
Definition calculate_stats (columns : list string) (data : tdata) (line_type indy : string) (indys : list string)
  (series1 series2 : option (list (string * list string))) : res (list string * list row) :=
  match data with
  | [] => Err ValueError
  | _ =>
      match AggModel.assoc line_type STATISTIC_TO_FIELDS with
      | None => finish columns [] (columns, relabel data)
      | Some fields =>
          let names := if String.eqb line_type "sal1l2" then map rename_anomaly columns else columns in
          let tb := (names, relabel data) in
          match aggregate_special_fields line_type indy indys series1 tb with
          | Err KeyError => finish names fields tb
          | Err e => Err e
          | Ok tb1 =>
              match aggregate_special_fields line_type indy indys series2 tb1 with
              | Err KeyError => finish names fields tb1
              | Err e => Err e
              | Ok tb2 =>
                  vs <- row_values names (fst tb2) (map snd (snd tb2)) ;;
                  finish names fields (write_values tb2 vs)
              end
          end
      end
  end.
End SumDriver.
