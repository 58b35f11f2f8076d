(** Aggregation of joined field values ("EAST;NMT"): metcalcpy/util/utils.py 458-669. *)
From Coq Require Import Ascii.
From Verif Require Import PyBase ColumnModel AggModel EventModel.
Open Scope string_scope.
Open Scope Q_scope.

(** [input_df[column]]: KeyError when there is no such column. *)
Definition series_of (columns : list string) (rows : tdata) (name : string) : res (list cell) :=
  match index_of name columns with
  | Some i => column_at rows i
  | None => Err KeyError
  end.

(** [input_df.total.astype(float)]: AttributeError when there is no such column, ValueError
    on text. *)
Definition total_series (columns : list string) (rows : tdata) : res (list cell) :=
  match index_of "total" columns with
  | Some i =>
      cs <- column_at rows i ;;
      mapM (fun c => match c with CStr _ => Err ValueError | _ => Ok c end) cs
  | None => Err AttributeError
  end.

(** Row by row operation on two columns of one frame. *)
Fixpoint rowwise (f : cell -> cell -> res cell) (a b : list cell) : res (list cell) :=
  match a, b with
  | x :: a', y :: b' => z <- f x y ;; zs <- rowwise f a' b' ;; Ok (z :: zs)
  | _, _ => Ok []
  end.

(** [a * b] of columns: NaN propagates, text is a TypeError. *)
Definition series_times : list cell -> list cell -> res (list cell) := rowwise cell_times.

(** [1.0 - a]. *)
Definition one_minus (a : list cell) : res (list cell) :=
  mapM (fun c => match c with
                 | CNum q => Ok (CNum (1 - q))
                 | CMiss => Ok CMiss
                 | CStr _ => Err TypeError
                 end) a.

(** [a / b] of columns: pandas silences the division warnings; 0/0 is NaN, and the model
    stops where an infinite value would appear. *)
Definition series_div : list cell -> list cell -> res (list cell) :=
  rowwise (fun x y =>
    match x, y with
    | CStr _, _ | _, CStr _ => Err TypeError
    | CNum p, CNum q =>
        if Qeq_bool q 0 then (if Qeq_bool p 0 then Ok CMiss else Err NotModelled)
        else Ok (CNum (p / q))
    | _, _ => Ok CMiss
    end).

(** [np.nansum] of a column. *)
Fixpoint nansum_cells (l : list cell) : Q :=
  match l with
  | [] => 0
  | CNum q :: t => q + nansum_cells t
  | _ :: t => nansum_cells t
  end.

(** [np.nansum(column) / total]: numpy numbers; [None] is a TypeError. *)
Definition share (s : list cell) (total : pyval) : res pyval :=
  Ok (Some (nansum_cells s)) [//] Ok total.

(** utils.py 595-596 and alike: [np.nansum(input_df[column] * input_df.total.astype(float)) / total]. *)
Definition weighted (columns : list string) (rows : tdata) (total : pyval) (name : string) : res pyval :=
  s <- series_of columns rows name ;;
  t <- total_series columns rows ;;
  p <- series_times s t ;;
  share p total.

(** A loop [for column in column_names: sums_data_frame[column] = [...]]. *)
Definition weighted_all (columns : list string) (rows : tdata) (total : pyval) (names : list string)
  : res (list (string * pyval)) :=
  mapM (fun n => v <- weighted columns rows total n ;; Ok (n, v)) names.

(** utils.py 593 [column_names] for sl1l2, 611 vl1l2, 618 val1l2, 624 grad, 656 ecnt. *)
Definition sl1l2_names : list string := ["fbar"; "obar"; "fobar"; "ffbar"; "oobar"].
Definition vl1l2_names : list string :=
  ["ufbar"; "vfbar"; "uobar"; "vobar"; "uvfobar"; "uvffbar"; "uvoobar"; "f_speed_bar"; "o_speed_bar"].
Definition val1l2_names : list string :=
  ["ufabar"; "vfabar"; "uoabar"; "voabar"; "uvfoabar"; "uvffabar"; "uvooabar"].
Definition grad_names : list string := ["fgbar"; "ogbar"; "mgbar"; "egbar"].
Definition ecnt_names : list string :=
  ["me"; "crps"; "ign"; "spread"; "me_oerr"; "spread_oerr"; "spread_plus_oerr"].

(** utils.py 598-608, sal1l2: the means of the anomaly columns are stored under the names of
    the sl1l2 columns. *)
Definition sums_sal1l2 (columns : list string) (rows : tdata) (total : pyval)
  : res (list (string * pyval)) :=
  f <- weighted columns rows total "fabar" ;;
  o <- weighted columns rows total "oabar" ;;
  fo <- weighted columns rows total "foabar" ;;
  ff <- weighted columns rows total "ffabar" ;;
  oo <- weighted columns rows total "ooabar" ;;
  Ok [("fbar", f); ("obar", o); ("fobar", fo); ("ffbar", ff); ("oobar", oo)].

(** utils.py 629-646, nbrcnt. *)
Definition sums_nbrcnt (columns : list string) (rows : tdata) (total : pyval)
  : res (list (string * pyval)) :=
  fbs <- weighted columns rows total "fbs" ;;
  b <- series_of columns rows "fbs" ;;
  s <- series_of columns rows "fss" ;;
  s1 <- one_minus s ;;
  d <- series_div b s1 ;;
  t <- total_series columns rows ;;
  dt <- series_times d t ;;
  den <- share dt total ;;
  fss <- pylit 1 [-] (Ok fbs [//] Ok den) ;;
  f <- weighted columns rows total "f_rate" ;;
  o <- weighted columns rows total "o_rate" ;;
  anum <- pylit 2 [*] Ok f [*] Ok o ;;
  aden <- Ok f [*] Ok f [+] Ok o [*] Ok o ;;
  afss <- Ok anum [//] Ok aden ;;
  ufss <- pylit (1 # 2) [+] (Ok o [//] pylit 2) ;;
  Ok [("fbs", fbs); ("fss", fss); ("afss", afss); ("ufss", ufss); ("f_rate", f); ("o_rate", o)].

(** utils.py 648-659, ecnt.  The first three products use the column 'total' as it is. *)
Definition sums_ecnt (columns : list string) (rows : tdata) (total : pyval)
  : res (list (string * pyval)) :=
  r1 <- series_of columns rows "rmse" ;;
  mse <- series_times r1 r1 ;;
  r2 <- series_of columns rows "rmse_oerr" ;;
  mse_oerr <- series_times r2 r2 ;;
  c <- series_of columns rows "crps" ;;
  cs <- series_of columns rows "crpss" ;;
  cs1 <- one_minus cs ;;
  climo <- series_div c cs1 ;;
  t <- series_of columns rows "total" ;;
  p1 <- series_times t mse ;;
  m1 <- share p1 total ;;
  p2 <- series_times t mse_oerr ;;
  m2 <- share p2 total ;;
  p3 <- series_times t climo ;;
  m3 <- share p3 total ;;
  rest <- weighted_all columns rows total ecnt_names ;;
  Ok (("mse", m1) :: ("mse_oerr", m2) :: ("crps_climo", m3) :: rest).

(** utils.py 660-667, rps. *)
Definition sums_rps (columns : list string) (rows : tdata) (total : pyval)
  : res (list (string * pyval)) :=
  r <- series_of columns rows "rps" ;;
  rs <- series_of columns rows "rpss" ;;
  rs1 <- one_minus rs ;;
  climo <- series_div r rs1 ;;
  v1 <- weighted columns rows total "rps" ;;
  v2 <- weighted columns rows total "rps_comp" ;;
  t <- total_series columns rows ;;
  ct <- series_times climo t ;;
  v3 <- share ct total ;;
  Ok [("rps", v1); ("rps_comp", v2); ("rps_climo", v3)].

(** utils.py 586-590, ctc and nbrctc: [sum_column_data_by_name(values, column_names, column_names)]
    passes the list of the four names both as the table's columns and as the wanted name.
    Comparing the list with itself gives the single value True, and [np.where(True)] issues a
    DeprecationWarning, which the caller's [warnings.filterwarnings('error')] turns into an
    exception (numpy 1.17 and later; the tested version is 1.24). *)
Definition sums_ctc : res (list (string * pyval)) := Err PyWarning.

(** utils.py 567-669, [calc_series_sums], as run by [aggregate_field_values] (warnings are
    errors). *)
Definition calc_series_sums (columns : list string) (rows : tdata) (line_type : string)
  : res (list (string * pyval)) :=
  total <- sum_column_data_by_name rows columns "total" true ;;
  rest <-
    (if String.eqb line_type "ctc" || String.eqb line_type "nbrctc" then sums_ctc
     else if String.eqb line_type "sl1l2" then weighted_all columns rows total sl1l2_names
     else if String.eqb line_type "sal1l2" then sums_sal1l2 columns rows total
     else if String.eqb line_type "vl1l2" then weighted_all columns rows total vl1l2_names
     else if String.eqb line_type "val1l2" then weighted_all columns rows total val1l2_names
     else if String.eqb line_type "grad" then weighted_all columns rows total grad_names
     else if String.eqb line_type "nbrcnt" then sums_nbrcnt columns rows total
     else if String.eqb line_type "ecnt" then sums_ecnt columns rows total
     else if String.eqb line_type "rps" then sums_rps columns rows total
     else Ok []) ;;
  Ok (("total", total) :: rest).

(** A data frame: rows with their index labels (labels need not be distinct). *)
Notation frame := (list (nat * list cell)) (only parsing).

(** Boolean selection in which the test of a row may raise. *)
Fixpoint filterM {A : Type} (f : A -> res bool) (l : list A) : res (list A) :=
  match l with
  | [] => Ok []
  | x :: t => b <- f x ;; r <- filterM f t ;; Ok (if b then x :: r else r)
  end.

(** [==] of two cells of a frame: NaN equals nothing. *)
Definition cell_eqb (a b : cell) : bool :=
  match a, b with
  | CNum p, CNum q => Qeq_bool p q
  | CStr s, CStr t => String.eqb s t
  | _, _ => false
  end.

(** [Series.unique()]: first occurrences; NaN is kept once. *)
Definition same_value (a b : cell) : bool :=
  match a, b with CMiss, CMiss => true | _, _ => cell_eqb a b end.
Fixpoint unique_from (seen : list cell) (l : list cell) : list cell :=
  match l with
  | [] => []
  | c :: t => if existsb (same_value c) seen then unique_from seen t
              else c :: unique_from (c :: seen) t
  end.
Definition unique_cells (l : list cell) : list cell := unique_from [] l.

(** [column.isin(single_values)] for a list of strings: only text cells can match
    (a number does not equal its spelling). *)
Definition isin_text (vals : list string) (c : cell) : bool :=
  match c with CStr s => mem s vals | _ => false end.
(** [column.isin(single_values_int)]. *)
Definition isin_ints (vals : list Z) (c : cell) : bool :=
  match c with CNum q => existsb (fun z => Qeq_bool q (inject_Z z)) vals | _ => false end.

(** utils.py 505-507, 543-545: the loop [for field in input_data_frame.columns] writes every
    aggregated field that the frame has into the row.  Simplifications: column names are
    distinct; the changes of column type that pandas makes, and the warnings it may give
    about them, are left out. *)
Definition write_field (agg : list (string * pyval)) (c : string * cell) : cell :=
  match assoc (fst c) agg with
  | Some (Some q) => CNum q
  | Some None => CMiss
  | None => snd c
  end.
Definition write_fields (columns : list string) (agg : list (string * pyval)) (r : row) : row :=
  map (write_field agg) (combine columns r).

(** utils.py 490-513 and 527-562: take the selected rows out of the frame - by index label, so
    every row that carries one of their labels goes - and append one row, with label 0: the
    first selected row with the aggregated fields and the new name written into it.  When
    nothing is selected, writing to row 0 creates a row of missing values. *)
Definition aggregate_where (columns : list string) (line_type : string) (vi : nat) (name : cell)
  (sel : row -> res bool) (fr : frame) : res frame :=
  selected <- filterM (fun x => sel (snd x)) fr ;;
  let rest := filter (fun x => negb (existsb (Nat.eqb (fst x)) (map fst selected))) fr in
  agg <- calc_series_sums columns (map snd selected) line_type ;;
  let base := match selected with (_, r) :: _ => r | [] => repeat CMiss (length columns) end in
  Ok (rest ++ [(O, set_nth vi name (write_fields columns agg base))])%list.

Fixpoint foldM {A B : Type} (f : B -> A -> res A) (l : list B) (a : A) : res A :=
  match l with
  | [] => Ok a
  | x :: t => a' <- f x a ;; foldM f t a'
  end.

(** utils.py 490-494: rows of one valid time and one lead time whose series value is one of
    the joined ones. *)
Definition select_time (pi li vi : nat) (vals : list string) (t : cell * cell) (r : row) : res bool :=
  p <- cell_at pi r ;; l <- cell_at li r ;; v <- cell_at vi r ;;
  Ok (cell_eqb p (fst t) && cell_eqb l (snd t) && isin_text vals v).

(** utils.py 527-530: rows of one valid time with one of the joined lead times. *)
Definition select_leads (pi vi : nat) (vals : list Z) (t : cell) (r : row) : res bool :=
  p <- cell_at pi r ;; v <- cell_at vi r ;;
  Ok (cell_eqb p t && isin_ints vals v).

(** utils.py 521-524: the joined lead times as integers, blanks skipped; ValueError if one of
    them is not an integer. *)
Fixpoint lead_values (l : list string) : res (list Z) :=
  match l with
  | [] => Ok []
  | s :: t =>
      if String.eqb s "" then lead_values t
      else match parse_int s with
           | Some z => zs <- lead_values t ;; Ok (z :: zs)
           | None => Err ValueError
           end
  end.

(** [';' in series_val]. *)
Fixpoint has_semicolon (s : string) : bool :=
  match s with
  | EmptyString => false
  | String c rest => Ascii.eqb c ";" || has_semicolon rest
  end.

(** utils.py 483-562: the work for one joined value.  The new name of an aggregated lead time
    is the first of the joined values, as text (551-559). *)
Definition aggregate_value (columns : list string) (line_type : string) (pi li : nat)
  (valids leads : list cell) (var : string) (series_val : string) (fr : frame) : res frame :=
  let single := split_on ";" series_val in
  if String.eqb var "fcst_lead" then
    foldM (fun v fr =>
      ints <- lead_values single ;;
      match index_of var columns with
      | Some vi => aggregate_where columns line_type vi (CStr (hd "" single)) (select_leads pi vi ints v) fr
      | None => Err KeyError
      end) valids fr
  else
    foldM (fun t fr =>
      match index_of var columns with
      | Some vi => aggregate_where columns line_type vi (CStr series_val) (select_time pi li vi single t) fr
      | None => Err KeyError
      end) (list_prod valids leads) fr.

(** utils.py 458-564, [aggregate_field_values].  A missing 'fcst_valid_beg' or 'fcst_lead' is an
    AttributeError.  Simplification: the values of the series are text. *)
Definition aggregate_field_values (series : list (string * list string)) (columns : list string)
  (fr : frame) (line_type : string) : res frame :=
  match index_of "fcst_valid_beg" columns, index_of "fcst_lead" columns with
  | Some pi, Some li =>
      pcol <- column_at (map snd fr) pi ;;
      lcol <- column_at (map snd fr) li ;;
      let valids := unique_cells pcol in
      let leads := unique_cells lcol in
      foldM (fun '(var, vals) fr =>
        foldM (fun v fr =>
          if has_semicolon v then aggregate_value columns line_type pi li valids leads var v fr
          else Ok fr) vals fr) series fr
  | _, _ => Err AttributeError
  end.
