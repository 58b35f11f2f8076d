(** The programs of the package with the files they read and write: the ends of metcalcpy/agg_stat.py,
    agg_eclv.py, sum_stat.py, scorecard.py, agg_stat_bootstrap.py, agg_stat_eqz.py and
    agg_stat_event_equalize.py.  A file is a list of lines, a line a list of fields; the text of a field
    (quotes, decimals, the text NA of a missing value) is not modelled, and neither is the seed of the random
    numbers: samples are a parameter of the calculation.  All parameters not named as optional are present. *)
From Coq Require Import Reals.
From Verif Require Import PyBase ColumnModel EventModel UtilModel BootModel DriveModel EqzModel EclvDriveModel.
From Verif Require SumDriveModel ModeDriveModel AggModel.
From Verif Require Import CardModel.
From Coq Require Import List.
Open Scope string_scope.

(** A field of a file. *)
Notation field := card_cell.
Notation line := (list field).
(** The files by their names. *)
Notation world := (string -> option (list line)).

(** Why a run ends early: there is no such file, there is nothing in it (pandas.errors.EmptyDataError), or an
    exception of the calculation. *)
Inductive failure : Type := NoFile (path : string) | NoData | Raised (e : exn).

(** Statements that read and write files and may raise; what was written before stays. *)
Definition io (A : Type) : Type := world -> world * (A + failure).
Definition ret {A : Type} (x : A) : io A := fun w => (w, inl x).
Definition stop {A : Type} (f : failure) : io A := fun w => (w, inr f).
Definition andthen {A B : Type} (m : io A) (k : A -> io B) : io B :=
  fun w => match m w with (w', inl x) => k x w' | (w', inr f) => (w', inr f) end.
Definition lift {A : Type} (r : res A) : io A := match r with Ok x => ret x | Err e => stop (Raised e) end.
Notation "x <~ m ;;; k" := (andthen m (fun x => k)) (at level 61, m at next level, right associativity).

(** ** Parameters *)
(** A value of the dictionary of parameters. *)
Inductive param : Type := PText (s : string) | PBool (b : bool) | PNone.
(** utils.py 43 and 235-244, [parse_bool]: other values are returned as they are. *)
Definition parse_bool (p : param) : param :=
  match p with
  | PText s => if String.eqb s "True" then PBool true else if String.eqb s "False" then PBool false else p
  | _ => p
  end.
(** [if value:] *)
Definition truthy (p : param) : bool :=
  match p with PText s => negb (String.eqb s "") | PBool b => b | PNone => false end.
(** agg_stat.py 1169, agg_eclv.py 306, scorecard.py 181. *)
Definition appends (p : option param) : bool :=
  match p with Some (PText s) => String.eqb s "True" | _ => false end.

(** ** Tables *)
Section Files.
(** Text of a number. *)
Variable show : Q -> string.

(** A line as the names of columns, for a file whose first line is no header. *)
Definition name_of (f : field) : res string :=
  match f with
  | Given s => Ok s
  | Kept c | TextOf c => Ok (match c with CNum q => show q | CMiss => "NA" | CStr s => s end)
  | Score _ => Err NotModelled
  end.
Definition cell_of (f : field) : res cell :=
  match f with Given s => Ok (CStr s) | Kept c | TextOf c => Ok c | Score _ => Err NotModelled end.
Definition is_blank (l : line) : bool := match l with [] => true | _ => false end.
Fixpoint distinct (l : list string) : bool :=
  match l with [] => true | x :: t => negb (mem x t) && distinct t end.
(** [pd.read_csv(path, header=[0], sep='\t')]: blank lines are skipped, the first line has the names.  Equal
    names (which pandas changes) and lines of different lengths are not modelled; a cell that was written comes
    back as it was (pandas would make a column of texts numbers if only texts of numbers are left in it). *)
Definition table_of (lines : list line) : frame + failure :=
  match filter (fun l => negb (is_blank l)) lines with
  | [] => inr NoData
  | h :: rows =>
      match (names <- mapM name_of h ;;
             cells <- mapM (mapM cell_of) rows ;;
             if distinct names && forallb (fun r : row => Nat.eqb (length r) (length names)) cells
             then Ok (names, cells) else Err NotModelled) with
      | Ok f => inl f
      | Err e => inr (Raised e)
      end
  end.
Definition read_csv (path : string) : io frame :=
  fun w => match w path with None => (w, inr (NoFile path)) | Some lines => (w, table_of lines) end.

(** [frame.to_csv(path, index=None, header=header, mode=mode, sep='\t')]; the header of a frame without
    columns is a blank line.  Mode 'a' makes a new file if there is none. *)
Definition to_csv (path : string) (append : bool) (names : list string) (rows : list line) : io unit :=
  fun w =>
    let before := if append then match w path with Some l => l | None => [] end else [] in
    let header := if append then [] else [map Given names] in
    (fun p => if String.eqb p path then Some (before ++ header ++ rows)%list else w p, inl tt).

(** [pd.concat] of frames with different columns: the columns of the first one, then the others. *)
Definition union_columns (a b : list string) : list string := (a ++ filter (fun n => negb (mem n a)) b)%list.
Definition field_at (r : card_row) (n : string) : field := match AggModel.assoc n r with Some f => f | None => Kept CMiss end.
Definition line_at (names : list string) (r : card_row) : line := map (field_at r) names.
Definition number (v : pyval) : field := Kept (match v with Some q => CNum q | None => CMiss end).
Definition count_of (n : nat) : field := Kept (CNum (inject_Z (Z.of_nat n))).
Definition texts (p : list (string * string)) : card_row := map (fun nv => (fst nv, Given (snd nv))) p.
Definition text_or_none (s : option string) : field := match s with Some s => Given s | None => Kept CMiss end.
(** A frame of cells. *)
Definition plain_lines (rows : tdata) : list line := map (map Kept) rows.

(** ** agg_stat.py *)
(** agg_stat.py 906-910. *)
Definition RESULT_COLUMNS : list string := ["fcst_var"; "stat_value"; "stat_btcl"; "stat_btcu"; "nstats"].
(** agg_stat.py 891-911, 1104-1108: columns and a line of the output. *)
Definition agg_columns (rq : request) : list string := (map fst (all_fields_values rq) ++ RESULT_COLUMNS)%list.
Definition agg_line (o : out_row) : card_row :=
  (texts (point_of o) ++
   [("fcst_var", text_or_none (fcst_var_of o)); ("stat_value", number (value (stat_of o)));
    ("stat_btcl", number (lower_bound (stat_of o))); ("stat_btcu", number (upper_bound (stat_of o)));
    ("nstats", count_of (nstats o))])%list.

Record agg_params : Type := AggParams {
  agg_input : string; agg_output : string;
  agg_append : option param;             (* append_to_file, optional *)
  agg_event_equal : param;
  agg_fixed : list (string * fixed_value);
  agg_var1 : option (option (list (string * list string)));
  agg_var2 : option (option (list (string * list string)));
  agg_rq1 : request; agg_rq2 : request;
  agg_engine : list string -> engine;    (* depends on the columns *)
  agg_single : bool; agg_line_type : string
}.
(** [list(set(...))] in its arbitrary order. *)
Variable set_order : list string -> list string.
(** The frame without columns and rows. *)
Definition frame_or_empty (f : option frame) : frame := match f with Some f => f | None => ([], []) end.

(** agg_stat.py 95-96 and 1125-1162: the table of the output. *)
Definition agg_table (p : agg_params) (f : frame) : res (list string * list line) :=
  f' <- (if truthy (parse_bool (agg_event_equal p))
         then o <- perform_event_equalization show set_order (agg_fixed p) (indy_var (agg_rq1 p)) (agg_var1 p) (agg_var2 p)
                     (series_val (agg_rq1 p)) (series_val (agg_rq2 p)) f ;;
              Ok (frame_or_empty o)
         else Ok f) ;;
  out <- DriveModel.calculate_stats (agg_engine p (fst f)) (agg_single p) (agg_line_type p) (fst f') (snd f') (agg_rq1 p) (agg_rq2 p) ;;
  match snd f' with
  | [] => Ok ([], [])
  | _ =>
      let names := match series_val (agg_rq2 p) with
                   | [] => agg_columns (agg_rq1 p)
                   | _ => union_columns (agg_columns (agg_rq1 p)) (agg_columns (agg_rq2 p))
                   end in
      Ok (names, map (fun o => line_at names (agg_line o)) out)
  end.
(** agg_stat.py 79-104 and 1114-1175. *)
Definition agg_stat (p : agg_params) : io unit :=
  f <~ read_csv (agg_input p) ;;;
  t <~ lift (agg_table p f) ;;;
  to_csv (agg_output p) (appends (agg_append p)) (fst t) (snd t).

(** ** agg_eclv.py *)
(** agg_eclv.py 67 *)
Definition ECLV_HEADER : list string := ["thresh_i"; "x_pnt_i"; "y_pnt_i"; "stat_btcl"; "stat_btcu"; "nstats"].
(** agg_eclv.py 217-222 and 261-269: a line of the output. *)
Definition eclv_fields (o : eclv_row) : card_row :=
  (texts (eclv_point o) ++
   [("thresh_i", number (Some (thresh_i o))); ("x_pnt_i", number (Some (x_pnt_i o))); ("y_pnt_i", number (y_pnt_i o));
    ("stat_btcl", number (stat_btcl o)); ("stat_btcu", number (stat_btcu o)); ("nstats", count_of (eclv_nstats o))])%list.

Record eclv_params : Type := EclvParams {
  eclv_input : string; eclv_output : string;
  eclv_append : option param;
  eclv_event_equal : param; eclv_by_indep : param;
  eclv_fixed : list (string * fixed_value);
  eclv_series : list (string * list string);
  eclv_line_type : string; eclv_step : Q; eclv_base_rate : option Z;
  eclv_samples : option ((tdata -> list tdata) * ci_method);
  eclv_np_float : bool
}.
(** agg_eclv.py 289-292: the values of a fixed variable; only a dictionary has [values()]. *)
Definition eclv_fixed_values (v : fixed_value) : res (list string) :=
  match v with FDict d => Ok (concat (product (map snd d))) | _ => Err AttributeError end.
(** agg_eclv.py 285-302: equalization of the table, and the table of the output. *)
Definition eclv_table (p : eclv_params) (f : frame) : res (list string * list line) :=
  f' <- (if truthy (parse_bool (eclv_event_equal p))
         then vals <- mapM (fun kv => eclv_fixed_values (snd kv)) (eclv_fixed p) ;;
              kept <- event_equalize show (snd f) (fst f) "stat_name" (eclv_series p) (map fst (eclv_fixed p)) vals
                        (truthy (parse_bool (eclv_by_indep p))) ;;
              Ok (with_keys (fst f) kept)
         else Ok f) ;;
  out <- aggregate_eclv (eclv_np_float p) (eclv_line_type p) (fst f') (snd f') (eclv_series p) (eclv_step p)
           (eclv_base_rate p) (eclv_samples p) ;;
  match snd f' with
  | [] => Ok ([], [])
  | _ => let names := (map fst (eclv_series p) ++ ECLV_HEADER)%list in Ok (names, map (fun o => line_at names (eclv_fields o)) out)
  end.
(** agg_eclv.py 69-102: the step and the line type are looked at before the file is read. *)
Definition agg_eclv (p : eclv_params) : io unit :=
  _ <~ lift (arange (eclv_step p)) ;;;
  _ <~ lift (line_type_columns (eclv_line_type p)) ;;;
  f <~ read_csv (eclv_input p) ;;;
  t <~ lift (eclv_table p f) ;;;
  to_csv (eclv_output p) (appends (eclv_append p)) (fst t) (snd t).

(** ** scorecard.py *)
Record card_params : Type := CardParams {
  card_input : string; card_output : string;
  card_append : option param;
  card_rq : request;
  card_cdf : Z -> R -> R; card_emc : bool; card_ndays : Z
}.
(** scorecard.py 81-104 and 106-186.  All rows of the output have the columns of the first. *)
Definition scorecard (p : card_params) : io unit :=
  f <~ read_csv (card_input p) ;;;
  match snd f with
  | [] => _ <~ to_csv (card_output p) false (fst f) [] ;;; stop (Raised ValueError)
  | _ =>
      out <~ lift (calculate_scorecard (card_cdf p) (card_emc p) (card_ndays p) (fst f) (snd f) (card_rq p)) ;;;
      match out with
      | [] => ret tt
      | o :: _ => to_csv (card_output p) (appends (card_append p)) (map fst o) (map (map snd) out)
      end
  end.

(** ** sum_stat.py *)
Record sum_params : Type := SumParams {
  sum_input : string; sum_output : string;
  sum_event_equal : param;
  sum_fixed : list (string * fixed_value);
  sum_var1 : option (option (list (string * list string)));
  sum_var2 : option (option (list (string * list string)));
  sum_line_type : string; sum_indy : string; sum_indy_vals : list string;
  sum_series1 : list (string * list string);
  sum_series2 : option (list (string * list string));  (* may be absent *)
  sum_statistic : string -> option (list string -> tdata -> res pyval)
}.
(** sum_stat.py 140-171 after the equalization: the table that is written. *)
Definition sum_equalized (p : sum_params) (fields names : list string) (f : frame) : res (list string * list row) :=
  let tb := (fst f, SumDriveModel.relabel (snd f)) in
  match snd f with
  | [] => SumDriveModel.finish names fields tb
  | _ =>
      match SumDriveModel.aggregate_special_fields (sum_line_type p) (sum_indy p) (sum_indy_vals p) (Some (sum_series1 p)) tb with
      | Err KeyError => SumDriveModel.finish names fields tb
      | Err e => Err e
      | Ok tb1 =>
          match SumDriveModel.aggregate_special_fields (sum_line_type p) (sum_indy p) (sum_indy_vals p) (sum_series2 p) tb1 with
          | Err KeyError => SumDriveModel.finish names fields tb1
          | Err e => Err e
          | Ok tb2 =>
              vs <- SumDriveModel.row_values (sum_statistic p) names (fst tb2) (map snd (snd tb2)) ;;
              SumDriveModel.finish names fields (SumDriveModel.write_values tb2 vs)
          end
      end
  end.
(** sum_stat.py 122-171: a KeyError of the equalization is caught too.  Series of the second axis that are absent
    are no series for the equalization (utils.py 784), but a KeyError later. *)
Definition sum_table (p : sum_params) (f : frame) : res (list string * list row) :=
  if truthy (parse_bool (sum_event_equal p)) then
    match AggModel.assoc (sum_line_type p) SumDriveModel.STATISTIC_TO_FIELDS with
    | None => SumDriveModel.finish (fst f) [] (fst f, SumDriveModel.relabel (snd f))
    | Some fields =>
        let names := if String.eqb (sum_line_type p) "sal1l2" then map SumDriveModel.rename_anomaly (fst f) else fst f in
        match perform_event_equalization show set_order (sum_fixed p) (sum_indy p) (sum_var1 p) (sum_var2 p)
                (sum_series1 p) (match sum_series2 p with Some s => s | None => [] end) (names, snd f) with
        | Err KeyError => SumDriveModel.finish names fields (names, SumDriveModel.relabel (snd f))
        | Err e => Err e
        | Ok o => sum_equalized p fields names (frame_or_empty o)
        end
    end
  else SumDriveModel.calculate_stats (sum_statistic p) (fst f) (snd f) (sum_line_type p) (sum_indy p) (sum_indy_vals p)
         (Some (sum_series1 p)) (sum_series2 p).
(** sum_stat.py 76-103 and 173-175. *)
Definition sum_stat (p : sum_params) : io unit :=
  f <~ read_csv (sum_input p) ;;;
  match snd f with
  | [] => _ <~ to_csv (sum_output p) false (fst f) [] ;;; stop (Raised ValueError)
  | _ => t <~ lift (sum_table p f) ;;; to_csv (sum_output p) false (fst t) (plain_lines (snd t))
  end.

(** ** agg_stat_eqz.py *)
Record eqz_params : Type := EqzParams {
  eqz_input : string; eqz_cases : string; eqz_output : string;
  eqz_event_equal : param;
  eqz_var1 : list (string * list string); eqz_var2 : list (string * list string);
  eqz_series1 : list (string * list string); eqz_series2 : list (string * list string)
}.
(** The rows of an axis as a frame: without rows it has no columns (event_equalize_against_values.py 50, 57). *)
Definition rows_frame (names : list string) (rows : tdata) : frame := match rows with [] => ([], []) | _ => (names, rows) end.
(** agg_stat_eqz.py 60-101. *)
Definition agg_stat_eqz (p : eqz_params) : io unit :=
  f <~ read_csv (eqz_input p) ;;;
  t <~ (match snd f with
        | [] => ret f
        | _ =>
            if truthy (parse_bool (eqz_event_equal p)) then
              prev <~ read_csv (eqz_cases p) ;;;
              r1 <~ lift (eqz_on_axis show f prev (eqz_var1 p) (eqz_series1 p)) ;;;
              match eqz_series2 p with
              | [] => ret (rows_frame (fst f) r1)
              | _ => r2 <~ lift (eqz_on_axis show f prev (eqz_var2 p) (eqz_series2 p)) ;;; ret (rows_frame (fst f) (r1 ++ r2))
              end
            else ret f
        end) ;;;
  to_csv (eqz_output p) false (fst t) (plain_lines (snd t)).

(** ** agg_stat_event_equalize.py *)
Record equalize_params : Type := EqualizeParams {
  equalize_input : string; equalize_output : string;
  equalize_fixed : list (string * list (string * list string));
  equalize_indy : string;
  equalize_series1 : list (string * list string); equalize_series2 : list (string * list string)
}.
(** agg_stat_event_equalize.py 58-115; [uniq] is [np.unique]. *)
Definition event_equalize_program (uniq : list string -> list string) (p : equalize_params) : io unit :=
  f <~ read_csv (equalize_input p) ;;;
  o <~ lift (agg_stat_event_equalize show uniq (equalize_fixed p) (equalize_indy p) (equalize_series1 p) (equalize_series2 p) f) ;;;
  to_csv (equalize_output p) false (fst (frame_or_empty o)) (plain_lines (snd (frame_or_empty o))).

(** ** agg_stat_bootstrap.py *)
Record mode_params : Type := ModeParams {
  mode_eqz : eqz_params;               (* the parameters it shares with agg_stat_eqz.py *)
  mode_rq1 : request; mode_rq2 : request;
  mode_text : string -> cell -> string;
  mode_calc : list string -> string -> tdata -> res pyval;
  mode_samples : option ((list string -> list (list string)) * ci_method)
}.
(** agg_stat_bootstrap.py 85-105, 206-216: columns and a line of the output. *)
Definition mode_columns (rq : request) : list string :=
  (map fst (dict_set "stat_name" (list_stat rq) (dict_set (indy_var rq) (indy_vals rq) (series_val rq))) ++ RESULT_COLUMNS)%list.
Definition mode_line (o : ModeDriveModel.mode_row) : card_row :=
  (texts (ModeDriveModel.mode_point o) ++
   [("fcst_var", text_or_none (ModeDriveModel.mode_var o)); ("stat_value", number (value (ModeDriveModel.mode_result o)));
    ("stat_btcl", number (lower_bound (ModeDriveModel.mode_result o)));
    ("stat_btcu", number (upper_bound (ModeDriveModel.mode_result o)));
    ("nstats", match ModeDriveModel.mode_nstats o with Some n => count_of n | None => Kept CMiss end)])%list.
(** agg_stat_bootstrap.py 309-316: [calculate_values] of agg_stat_eqz.py returns nothing, and None has no
    [to_csv]. *)
Definition bootstrap_equalization (p : mode_params) : io frame :=
  _ <~ agg_stat_eqz (mode_eqz p) ;;; stop (Raised AttributeError).
(** agg_stat_bootstrap.py 65-83 and 276-307. *)
Definition agg_stat_bootstrap (p : mode_params) : io unit :=
  f <~ read_csv (eqz_input (mode_eqz p)) ;;;
  t <~ (match snd f with
        | [] => ret ([], [])
        | _ =>
            f' <~ (if truthy (parse_bool (eqz_event_equal (mode_eqz p))) then bootstrap_equalization p else ret f) ;;;
            out <~ lift (ModeDriveModel.mode_values (mode_text p) (mode_calc p (fst f)) (mode_samples p) (fst f') (snd f')
                           (mode_rq1 p) (mode_rq2 p)) ;;;
            let names := match series_val (mode_rq2 p) with
                         | [] => mode_columns (mode_rq1 p)
                         | _ => union_columns (mode_columns (mode_rq1 p)) (mode_columns (mode_rq2 p))
                         end in
            ret (names, map (fun o => line_at names (mode_line o)) out)
        end) ;;;
  to_csv (eqz_output (mode_eqz p)) false (fst t) (snd t).
End Files.
