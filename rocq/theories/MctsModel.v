(** Model of metcalcpy/util/mcts_statistics.py: multi-category contingency tables. *)
From Coq Require Import DecimalString.
From Verif Require Import PyBase ColumnModel.
Open Scope string_scope.
Open Scope Q_scope.

(** [str(index)]. *)
Definition str (n : nat) : string := NilEmpty.string_of_uint (Nat.to_uint n).

(** mcts_statistics.py 38: [row[np.where(columns_names == name)[0][0]]]; no such column is an IndexError. *)
Definition col_index (columns : list string) (name : string) : res nat :=
  match index_of name columns with Some i => Ok i | None => Err IndexError end.
Definition row_value (r : list cell) (columns : list string) (name : string) : res cell :=
  i <- col_index columns name ;; cell_at i r.

(** A cell used as an integer ([range(n)], list index): a missing value, a string and a float are a
    TypeError.  Simplification: a whole number is taken to be an [int]. *)
Definition as_int (c : cell) : res Z :=
  match c with
  | CNum q => if (Qnum q mod Zpos (Qden q) =? 0)%Z then Ok (Qnum q / Zpos (Qden q))%Z else Err TypeError
  | _ => Err TypeError
  end.

(** [l[i] = v]. *)
Fixpoint set_nth {A : Type} (i : nat) (v : A) (l : list A) : list A :=
  match l, i with
  | [], _ => []
  | _ :: t, O => v :: t
  | x :: t, S j => x :: set_nth j v t
  end.

(** Python list index: negative ones count from the end. *)
Definition py_index (len : nat) (z : Z) : res nat :=
  let n := Z.of_nat len in
  if (0 <=? z)%Z && (z <? n)%Z then Ok (Z.to_nat z)
  else if (- n <=? z)%Z && (z <? 0)%Z then Ok (Z.to_nat (z + n))
  else Err IndexError.

(** mcts_statistics.py 42-45: every count of the first row is replaced by its column total.  The total
    is computed before the index of the column. *)
Fixpoint sum_counts (data : list (list cell)) (columns : list string) (indices : list nat) (r : list cell)
  : res (list cell) :=
  match indices with
  | [] => Ok r
  | k :: rest =>
      t <- sum_column_data_by_name data columns ("fi_oj_" ++ str k) true ;;
      i <- col_index columns ("fi_oj_" ++ str k) ;;
      sum_counts data columns rest (set_nth i (match t with Some q => CNum q | None => CMiss end) r)
  end.

(** mcts_statistics.py 51-55: the table is filled at the categories of the first row. *)
Fixpoint fill_table (columns : list string) (r : list cell) (indices : list nat) (table : list (list cell))
  : res (list (list cell)) :=
  match indices with
  | [] => Ok table
  | k :: rest =>
      ic <- row_value r columns ("i_value_" ++ str k) ;;
      jc <- row_value r columns ("j_value_" ++ str k) ;;
      f <- row_value r columns ("fi_oj_" ++ str k) ;;
      i <- as_int ic ;;
      i <- py_index (length table) (i - 1) ;;
      let line := nth i table [] in
      j <- as_int jc ;;
      j <- py_index (length line) (j - 1) ;;
      fill_table columns r rest (set_nth i (set_nth j f line) table)
  end.

(** Builtin [sum] of cells: only numbers can be added to 0. *)
Fixpoint sum_cells (l : list cell) : res Q :=
  match l with
  | [] => Ok 0
  | CNum q :: t => s <- sum_cells t ;; Ok (q + s)
  | _ :: _ => Err TypeError
  end.
(** Cells [table[i][i]]. *)
Definition diagonal (n : nat) (table : list (list cell)) : list cell :=
  map (fun i => nth i (nth i table []) CMiss) (seq 0 n).

(** mcts_statistics.py 21-66, [calculate_mcts_hss_ec]. *)
Definition calculate_mcts_hss_ec (data : list (list cell)) (columns : list string) : res pyval :=
  catch std_exns
    (match data with
     | [] => Err IndexError
     | first :: _ =>
         nc <- row_value first columns "n_cat" ;;
         ec <- row_value first columns "ec_value" ;;
         n <- as_int nc ;;
         let indices := seq 0 (Z.to_nat (n * n)) in
         r <- sum_counts data columns indices first ;;
         table <- fill_table columns r indices (repeat (repeat (CNum 0) (Z.to_nat n)) (Z.to_nat n)) ;;
         diag_count <- sum_cells (diagonal (Z.to_nat n) table) ;;
         sum_all <- sum_cells (concat table) ;;
         match ec with
         | CNum e =>
             pyround (pydiv (pylit (diag_count - e * sum_all)) (pylit (sum_all - e * sum_all)))
         | CMiss => Err ValueError
         | CStr _ => Err TypeError
         end
     end) None.
