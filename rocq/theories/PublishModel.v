(** The table of a correlation as it is returned: the end of [corr] and the rounding of tables in metcalcpy/util/correlation.py.
    Numbers are reals; NaN is [None].  The texts of numbers are parameters. *)
From Coq Require Import Reals String.
From Verif Require Import PyBase ColumnModel ModesModel.
From Coq Require Import List.
Import ListNotations.
Open Scope R_scope.

(** What a cell holds: a number, a text, a truth value, an array of floats or one of integers. *)
Inductive cell : Type := Num (v : option R) | Text (s : string) | Flag (b : bool) | Floats (l : list (option R)) | Integers (l : list Z).
(** A table: labels of rows, and columns with a cell for each row. *)
Record table : Type := Table { labels : list string; cols : list (string * list cell) }.
(** [np.round(x, decimals)]: to the nearest, halves to the even one. *)
Definition nearest (x : R) : Z :=
  let f := Int_part x in
  if Rlt_dec (x - IZR f) (1 / 2) then f else if Rlt_dec (1 / 2) (x - IZR f) then (f + 1)%Z else if Z.even f then f else (f + 1)%Z.
Definition np_round (decimals : nat) (x : R) : R := IZR (nearest (x * 10 ^ decimals)) / 10 ^ decimals.

Section Publish.
(** [str] of a cell that is not a text; [np.format_float_scientific] and [np.format_float_positional] with the default precision. *)
Variable str_cell : cell -> string.
Variables scientific positional : option R -> string.

(** correlation.py 1039-1048, [_format_bf].  NaN is neither large nor small. *)
Definition format_bf (c : cell) : res string :=
  match c with
  | Text s => Ok s
  | Num None => Ok (positional None)
  | Num (Some v) => if Rle_dec 10000 v then Ok (scientific (Some v)) else if Rle_dec v (1 / 10000) then Ok (scientific (Some v)) else Ok (positional (Some v))
  | Floats (_ :: _ :: _) | Integers (_ :: _ :: _) => Err ValueError
  | _ => Err NotModelled
  end.
(** correlation.py 1052-1056: an option is nothing, a number of decimals, or [_format_bf]. *)
Inductive option_value : Type := Nothing | Decimals (n : nat) | Format.
Definition options : list (string * option_value) := [("round", Nothing); ("round.column.CI95%", Decimals 2); ("round.column.BF10", Format)]%string.
Definition lookup (key : string) : option option_value := option_map snd (find (fun p => String.eqb (fst p) key) options).
(** correlation.py 1057-1065, [_get_round_setting_for]. *)
Definition round_setting (row col : string) : option_value :=
  match lookup ("round.cell.[" ++ row ++ "]x[" ++ col ++ "]") with
  | Some v => v
  | None => match lookup ("round.column." ++ col) with
            | Some v => v
            | None => match lookup ("round.row." ++ row) with Some v => v | None => Nothing end
            end
  end.
(** correlation.py 1019-1035: a cell rounded. *)
Definition round_cell (decimals : nat) (c : cell) : cell :=
  match c with
  | Flag _ | Text _ | Integers _ => c
  | Num v => Num (option_map (np_round decimals) v)
  | Floats l => Floats (map (option_map (np_round decimals)) l)
  end.
(** [df.at[row, col] = …]. *)
Definition set_at (i : nat) (c : cell) (l : list cell) : list cell := firstn i l ++ c :: skipn (S i) l.
(** [astype(str)]. *)
Definition as_text (c : cell) : cell := match c with Text _ => c | _ => Text (str_cell c) end.
(** correlation.py 1010-1035 for one cell: only its column can change. *)
Definition column_step (i : nat) (row : string) (column : string * list cell) : res (string * list cell) :=
  let '(col, cells) := column in
  match nth_error cells i with
  | None => Err NotModelled
  | Some c =>
      match round_setting row col with
      | Nothing => Ok column
      | Format => newval <- format_bf c ;; Ok (col, set_at i (Text newval) (map as_text cells))
      | Decimals n => Ok (col, set_at i (round_cell n c) cells)
      end
  end.
(** correlation.py 1009: all columns of each row; [l] are the rows with their places. *)
Fixpoint rows_loop (l : list (nat * string)) (columns : list (string * list cell)) : res (list (string * list cell)) :=
  match l with [] => Ok columns | (i, row) :: rest => c <- mapM (column_step i row) columns ;; rows_loop rest c end.
(** correlation.py 977-1036, [_postprocess_dataframe], of a copy.  Labels or names that are there twice are not modelled. *)
Definition postprocess (df : table) : res table :=
  if distinct (labels df) && distinct (map fst (cols df)) then
    c <- rows_loop (combine (seq 0 (List.length (labels df))) (labels df)) (cols df) ;; Ok {| labels := labels df; cols := c |}
  else Err NotModelled.

(** What [corr] has computed: number of pairs, correlation, its square, the adjusted one, the interval, the p-value of two sides, the
    power, and the Bayes factor. *)
Record answer : Type := Answer { a_n : R; a_r : option R; a_r2 : option R; a_adj : option R; a_ci : option R * option R; a_p : option R;
                                 a_power : option R; a_bf : option R }.
(** correlation.py 278-280 *)
Definition col_keep : list string := ["n"; "outliers"; "r"; "CI95%"; "r2"; "adj_r2"; "p-val"; "BF10"; "power"]%string.
(** [df[col_order]]: the columns in this order. *)
Definition select (columns : list (string * list cell)) : list (string * list cell) :=
  flat_map (fun k => match find (fun p => String.eqb (fst p) k) columns with Some p => [p] | None => [] end) col_keep.
(** correlation.py 243-281, the end of [corr].  [from_records] sorts the columns, which has no effect on what follows. *)
Definition corr_table (tail method : string) (a : answer) : res table :=
  match a_r a with
  | None => Ok {| labels := [method];
                  cols := [("n", [Num (Some (a_n a))]); ("r", [Num None]); ("CI95%", [Num None]); ("r2", [Num None]); ("adj_r2", [Num None]); ("p-val", [Num None]);
                           ("BF10", [Num None]); ("power", [Num None])]%string |}
  | Some r =>
      let stats := [("n", [Num (Some (a_n a))]); ("r", [Num (Some r)]); ("r2", [Num (a_r2 a)]); ("adj_r2", [Num (a_adj a)]);
                    ("CI95%", [Floats [fst (a_ci a); snd (a_ci a)]]);
                    ("p-val", [Num (if String.eqb tail "two-sided" then a_p a else option_map (fun p => / 2 * p) (a_p a))]);
                    ("power", [Num (a_power a)])]%string in
      let stats := if String.eqb method "pearson" then stats ++ [("BF10"%string, [Num (a_bf a)])] else stats in
      t <- postprocess {| labels := [method]; cols := stats |} ;; Ok {| labels := labels t; cols := select (cols t) |}
  end.
End Publish.
