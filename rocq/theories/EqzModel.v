(** Drivers of event equalization: equalize_axis_data and perform_event_equalization of
    metcalcpy/util/utils.py, metcalcpy/agg_stat_event_equalize.py and metcalcpy/agg_stat_eqz.py.
    A data frame is its column names and its rows; the frame without columns is [None].  Column names
    are distinct. *)
From Coq Require Import Ascii.
From Verif Require Import PyBase ColumnModel AggModel EventModel RocModel.
From Coq Require Import List.
Open Scope string_scope.

(** [series.isin(values)] for a list of texts: numbers and missing cells are in no list of texts. *)
Definition isin_text (values : list string) (c : cell) : bool :=
  match c with CStr s => mem s values | _ => false end.
(** [series == text]. *)
Definition equals_text (v : string) (c : cell) : bool :=
  match c with CStr s => String.eqb s v | _ => false end.

(** [data[test(data[name])]]; KeyError without the column. *)
Definition filter_column (columns : list string) (name : string) (test : cell -> bool) (data : tdata) : res tdata :=
  match index_of name columns with
  | None => Err KeyError
  | Some i => bs <- mapM (fun r => c <- cell_at i r ;; Ok (test c)) data ;; Ok (mask bs data)
  end.
(** The same behind [if name in data.keys()]. *)
Definition filter_if_present (columns : list string) (name : string) (test : cell -> bool) (data : tdata) : res tdata :=
  if mem name columns then filter_column columns name test data else Ok data.

(** [df.drop('equalize', axis=1)]: KeyError without the column. *)
Fixpoint drop_nth {A : Type} (i : nat) (l : list A) : list A :=
  match l, i with
  | [], _ => []
  | _ :: t, O => t
  | x :: t, S j => x :: drop_nth j t
  end.
Notation frame := (list string * tdata)%type.
Definition drop_equalize (f : frame) : res frame :=
  match index_of "equalize" (fst f) with
  | None => Err KeyError
  | Some i => Ok (drop_nth i (fst f), map (drop_nth i) (snd f))
  end.

(** [pd.concat] of two frames with the same columns; the frame without columns adds nothing.  Frames
    with different columns do not occur. *)
Definition concat_frames (a b : option frame) : res (option frame) :=
  match a, b with
  | None, _ => Ok b
  | _, None => Ok a
  | Some (ca, da), Some (cb, db) =>
      if list_eq_dec string_dec ca cb then Ok (Some (ca, (da ++ db)%list)) else Err NotModelled
  end.

Section Drivers.
Variable show : Q -> string.

(** event_equalize.py 26-171 as a function of frames: the frame that was passed in, which has got or
    changed its column 'equalize', and the frame of the rows that are kept. *)
Definition with_keys (columns : list string) (rows : list (string * row)) : frame :=
  (add_column columns "equalize", map (fun kr => set_cell columns "equalize" (CStr (fst kr)) (snd kr)) rows).
Definition equalize_frame (f : frame) (indy : string) (series : list (string * list string))
  (fix_vars : list string) (fix_vals : list (list string)) : res (frame * frame) :=
  out <- event_equalize show (snd f) (fst f) indy series fix_vars fix_vals true ;;
  kcols <- key_columns (fst f) true indy ;;
  keys <- mapM (row_key show (fst f) kcols) (snd f) ;;
  Ok (with_keys (fst f) (combine keys (snd f)), with_keys (fst f) out).

(** utils.py 700-719, the loop over the series variables; [current] is the frame of the previous turn.
    Every turn starts again from the whole input. *)
Fixpoint filter_series (f : frame) (fcst_var stat : string) (series : list (string * list string)) (current : tdata)
  : res tdata :=
  match series with
  | [] => Ok current
  | (series_var, vals) :: rest =>
      d1 <- filter_if_present (fst f) series_var (isin_text (flat_map ungroup vals)) (snd f) ;;
      d2 <- filter_if_present (fst f) "fcst_var" (equals_text fcst_var) d1 ;;
      d3 <- filter_if_present (fst f) "stat_name" (equals_text stat) d2 ;;
      filter_series f fcst_var stat rest d3
  end.

(** utils.py 693-735, one statistic: the input frame afterwards (without series variables it is the
    input itself that gets the column 'equalize') and the output so far. *)
Definition equalize_statistic (indy : string) (series : list (string * list string))
  (fix_vars : list string) (fix_vals : list (list string)) (fcst_var stat : string)
  (input : frame) (output : option frame) : res (frame * option frame) :=
  io <- (match series with
         | [] => equalize_frame input indy series fix_vars fix_vals
         | _ => d <- filter_series input fcst_var stat series [] ;;
                io <- equalize_frame (fst input, d) indy series fix_vars fix_vals ;;
                Ok (input, snd io)
         end) ;;
  let '(input', after_ee) := io in
  match output with
  | Some (c, (_ :: _) as d) => out <- concat_frames output (Some after_ee) ;; Ok (input', out)
  | _ => Ok (input', Some after_ee)
  end.

(** The statistics in the order of the two loops, utils.py 690 and 692. *)
Definition statistics (fcst_var_val : list (string * list string)) : list (string * string) :=
  flat_map (fun vs => map (fun st => (fst vs, st)) (snd vs)) fcst_var_val.

Fixpoint equalize_statistics (indy : string) (series : list (string * list string))
  (fix_vars : list string) (fix_vals : list (list string)) (sts : list (string * string))
  (input : frame) (output : option frame) : res (frame * option frame) :=
  match sts with
  | [] => Ok (input, output)
  | (fcst_var, stat) :: rest =>
      io <- equalize_statistic indy series fix_vars fix_vals fcst_var stat input output ;;
      equalize_statistics indy series fix_vars fix_vals rest (fst io) (snd io)
  end.

(** utils.py 683-688: [None]: no entry in the parameters; [Some None]: the entry is None. *)
Definition axis_variables (entry : option (option (list (string * list string)))) : list (string * list string) :=
  match entry with
  | None => [("", [""])]
  | Some None => []
  | Some (Some l) => l
  end.

(** utils.py 672-750, [equalize_axis_data]: the input afterwards and the result.  A result without the
    column 'equalize' is the frame without columns. *)
Definition equalize_axis_data (fix_vars : list string) (fix_vals : list (list string)) (indy : string)
  (fcst_var_val : option (option (list (string * list string)))) (series : list (string * list string)) (input : frame)
  : res (frame * option frame) :=
  io <- equalize_statistics indy series fix_vars fix_vals (statistics (axis_variables fcst_var_val)) input None ;;
  match snd io with
  | None => Ok io
  | Some f => match drop_equalize f with Ok f' => Ok (fst io, Some f') | Err _ => Ok io end
  end.

(** ** Both axes *)
(** A fixed variable: a dictionary of lists, a list, or a plain text (which is iterated by characters). *)
Inductive fixed_value : Type :=
| FDict (d : list (string * list string))
| FList (l : list string)
| FText (s : string).
(** utils.py 767-774. *)
Definition characters (s : string) : list string := map (fun c => String c "") (list_ascii_of_string s).
Definition fixed_permuted (v : fixed_value) : list string :=
  concat (product (match v with FDict d => map snd d | FList l => [l] | FText s => [characters s] end)).

(** [list(set(...))] in its arbitrary order. *)
Variable set_order : list string -> list string.
(** utils.py 793-795: [{**series_val_1, **series_val_2}] with the repetitions of every list removed. *)
Definition all_series (s1 s2 : list (string * list string)) : list (string * list string) :=
  map (fun kv => (fst kv, set_order (snd kv))) (fold_left (fun d kv => dict_set (fst kv) (snd kv) d) s2 s1).

(** utils.py 753-806, [perform_event_equalization].  [series2]: an absent, missing or empty second axis
    is the empty list.  A result without columns is [None].  Without columns the last equalization
    raises a KeyError. *)
Definition perform_event_equalization (fixed : list (string * fixed_value)) (indy : string)
  (var1 var2 : option (option (list (string * list string))))
  (series1 series2 : list (string * list string)) (input : frame) : res (option frame) :=
  let fix_vars := map fst fixed in
  let fix_vals := map (fun kv => fixed_permuted (snd kv)) fixed in
  o1 <- equalize_axis_data fix_vars fix_vals indy var1 series1 input ;;
  match series2 with
  | [] => Ok (snd o1)
  | _ =>
      o2 <- equalize_axis_data fix_vars fix_vals indy var2 series2 (fst o1) ;;
      all <- concat_frames (snd o1) (snd o2) ;;
      let records := match all with Some f => f | None => ([], []) end in
      out <- equalize_frame records indy (all_series series1 series2) fix_vars fix_vals ;;
      f <- drop_equalize (snd out) ;;
      Ok (Some f)
  end.

(** ** agg_stat_event_equalize.py *)
(** agg_stat_event_equalize.py 75-85: all permutations of all variables in one list. *)
Definition flat_permuted (fixed : list (string * list (string * list string))) : list (list string) :=
  flat_map (fun kv => product (map snd (snd kv))) fixed.

(** agg_stat_event_equalize.py 119-151, [run_ee_on_axis].  [vars]: the series variables that are left of the loop. *)
Fixpoint run_ee_loop (indy : string) (series : list (string * list string)) (fix_vars : list string)
  (fix_vals : list (list string)) (input : frame) (vars : list (string * list string)) (output : option frame)
  : res (option frame) :=
  match vars with
  | [] => Ok output
  | (series_var, vals) :: rest =>
      d <- filter_column (fst input) series_var (isin_text (flat_map (split_on ":") vals)) (snd input) ;;
      io <- equalize_frame (fst input, d) indy series fix_vars fix_vals ;;
      out <- (match output with
              | Some (c, (_ :: _) as d) => concat_frames output (Some (snd io))
              | _ => Ok (Some (snd io))
              end) ;;
      run_ee_loop indy series fix_vars fix_vals input rest out
  end.
Definition run_ee_on_axis indy series fix_vars fix_vals input : res (option frame) :=
  run_ee_loop indy series fix_vars fix_vals input series None.

(** agg_stat_event_equalize.py 70-117, [calculate_values], with the table that is written.  [uniq]: [np.unique]. *)
Definition drop_required (f : option frame) : res frame :=
  match f with None => Err KeyError | Some f => drop_equalize f end.
Definition agg_stat_event_equalize (uniq : list string -> list string) (fixed : list (string * list (string * list string)))
  (indy : string) (series1 series2 : list (string * list string)) (input : frame) : res (option frame) :=
  match snd input with
  | [] => Ok None
  | _ =>
      let fix_vals := flat_permuted fixed in
      o1 <- run_ee_on_axis indy series1 (map fst fixed) fix_vals input ;;
      match series2 with
      | [] => Ok o1
      | _ =>
          o2 <- run_ee_on_axis indy series2 (map fst fixed) fix_vals input ;;
          f1 <- drop_required o1 ;;
          f2 <- drop_required o2 ;;
          all <- concat_frames (Some f1) (Some f2) ;;
          let records := match all with Some f => f | None => ([], []) end in
          out <- equalize_frame records indy (map (fun kv => (fst kv, uniq (snd kv ++ snd kv)%list)) series2)
                   (map fst fixed) fix_vals ;;
          Ok (Some (snd out))
      end
  end.

(** ** agg_stat_eqz.py 103-144, [perform_ee_on_axis]: the rows of the result.
    The two masks of a frame are applied one after the other.  Only texts can equal a key. *)
Definition texts_of (cells : list cell) : list string := flat_map (fun c => match c with CStr s => [s] | _ => [] end) cells.
Definition eqz_pair (input prev : frame) (fcst_var : string) (sv : string * list string) : res tdata :=
  let values := flat_map (split_on ":") (snd sv) in
  d1 <- filter_column (fst input) "fcst_var" (equals_text fcst_var) (snd input) ;;
  d2 <- filter_column (fst input) (fst sv) (isin_text values) d1 ;;
  p1 <- filter_column (fst prev) "fcst_var" (equals_text fcst_var) (snd prev) ;;
  p2 <- filter_column (fst prev) (fst sv) (isin_text values) p1 ;;
  cases <- (match index_of "equalize" (fst prev) with
            | None => Err KeyError
            | Some i => mapM (cell_at i) p2
            end) ;;
  event_equalize_against_values show d2 (fst input) (texts_of cases).
Definition eqz_on_axis (input prev : frame) (fcst_var_val series : list (string * list string)) : res tdata :=
  parts <- mapM (fun fv => mapM (eqz_pair input prev (fst fv)) series) fcst_var_val ;;
  Ok (concat (map (@concat row) parts)).
End Drivers.
