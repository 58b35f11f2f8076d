(** Sorting by thresholds and the ROC table (metcalcpy/util/ctc_statistics.py).  A data frame is a list
    of column names with its rows; text is a list of bytes in UTF-8, whose byte order is the order of
    Python strings. *)
From Coq Require Import Ascii.
From Verif Require Import PyBase ColumnModel CtcModel AggModel.
From Coq Require Import List.
Open Scope string_scope.

(** ** The two regular expressions, ctc_statistics.py 1022-1023 *)

(** [s] after the prefix [op]. *)
Fixpoint after (op s : string) : option string :=
  match op, s with
  | EmptyString, _ => Some s
  | String a op', String b s' => if Ascii.eqb a b then after op' s' else None
  | _, _ => None
  end.

(** The alternatives of [(\<|\<=|\==|\>=|\>)] in their order. *)
Definition alternatives : list string := ["<"; "<="; "=="; ">="; ">"].

(** The ways in which the starred group can match at the start of [s], in the order in which the
    backtracking matcher tries them: the text of the last repetition and what follows.  [fuel] bounds
    the repetitions; each consumes a character. *)
Fixpoint star (fuel : nat) (last : option string) (s : string) : list (option string * string) :=
  match fuel with
  | O => [(last, s)]
  | S n =>
      flat_map (fun op => match after op s with Some rest => star n (Some op) rest | None => [] end)
        alternatives ++ [(last, s)]
  end.

Definition is_digit (c : ascii) : bool :=
  let n := nat_of_ascii c in Nat.leb 48 n && Nat.leb n 57.
Definition newline : ascii := ascii_of_nat 10.

(** [(-)*([0-9])]: dashes and a digit. *)
Fixpoint starts_number (s : string) : bool :=
  match s with
  | String c rest => if Ascii.eqb c "-"%char then starts_number rest else is_digit c
  | EmptyString => false
  end.

(** [(.)*]: up to the end of the line. *)
Fixpoint line (s : string) : string :=
  match s with
  | String c rest => if Ascii.eqb c newline then EmptyString else String c (line rest)
  | EmptyString => EmptyString
  end.

(** [match]: groups 1 and 2 of the first regular expression: the first way of matching the operators
    after which a number follows. *)
Definition match_number (s : string) : option (option string * string) :=
  match filter (fun c => starts_number (snd c)) (star (String.length s) None s) with
  | (op, rest) :: _ => Some (op, line rest)
  | [] => None
  end.

(** [match_text]: groups 1 and 2 of the second regular expression; it matches with the very first way. *)
Definition match_text (s : string) : option (option string * string) :=
  match star (String.length s) None s with
  | (op, rest) :: _ => Some (op, line rest)
  | [] => None
  end.

(** ** Sorting *)
Section Sort.
(** [float(text)]; [None]: ValueError.  Infinite values are not modelled. *)
Variable float_of : string -> option Q.

Inductive value : Type := VNum (q : Q) | VText (s : string).

(** ctc_statistics.py 1018-1032, one pass of the loop: operator and value.  [re.match] of a cell that
    is not a string is a TypeError. *)
Definition parse_thresh (c : cell) : res (option string * value) :=
  match c with
  | CStr s =>
      match match_number s with
      | Some (op, num) =>
          match float_of num with Some q => Ok (op, VNum q) | None => Err ValueError end
      | None =>
          match match_text s with
          | Some (op, text) => Ok (op, VText text)
          | None => Err NotModelled
          end
      end
  | _ => Err TypeError
  end.

(** ctc_statistics.py 1035-1047. *)
Definition wt_maps : list (string * Q) := [("<", 1); ("<=", 2); ("==", 3); (">=", 4); (">", 5)]%Q.
Definition operator_wt (op : option string) : res Q :=
  match op with
  | None => Ok 3%Q
  | Some o => match assoc o wt_maps with Some w => Ok w | None => Err KeyError end
  end.

Definition is_num (v : value) : bool := match v with VNum _ => true | VText _ => false end.

(** ctc_statistics.py 1053-1061: the kind of the last threshold selects the list of numbers or the list
    of texts as new column; pandas raises a ValueError if that list is shorter than the frame.  Without
    rows [match] is not bound. *)
Definition thresh_values (vs : list value) : res (list value) :=
  match rev vs with
  | [] => Err UnboundLocalError
  | v :: _ => if forallb (fun x => Bool.eqb (is_num x) (is_num v)) vs then Ok vs else Err ValueError
  end.

(** [df[name] = values]: replaces the column or adds it at the end. *)
Definition add_column (columns : list string) (name : string) : list string :=
  match index_of name columns with Some _ => columns | None => columns ++ [name] end.
Definition set_cell (columns : list string) (name : string) (c : cell) (r : row) : row :=
  match index_of name columns with Some i => set_nth i c r | None => r ++ [c] end.

Definition value_cell (v : value) : cell := match v with VNum q => CNum q | VText s => CStr s end.

(** Order of the keys (thresh_values, op_wts). *)
Definition value_cmp (a b : value) : comparison :=
  match a, b with
  | VNum x, VNum y => Qcompare x y
  | VText x, VText y => String.compare x y
  | VNum _, VText _ => Lt
  | VText _, VNum _ => Gt
  end.
Definition key_le (a b : value * Q) : bool :=
  match value_cmp (fst a) (fst b) with
  | Lt => true
  | Eq => Qle_bool (snd a) (snd b)
  | Gt => false
  end.

(** [sort_values] with two keys is stable, in both directions; the model sorts by insertion. *)
Section By.
Context {A : Type} (le : A -> A -> bool).
Fixpoint insert_by (x : A) (l : list A) : list A :=
  match l with
  | [] => [x]
  | y :: t => if le x y then x :: y :: t else y :: insert_by x t
  end.
Fixpoint sort_by (l : list A) : list A :=
  match l with [] => [] | x :: t => insert_by x (sort_by t) end.
End By.

(** ctc_statistics.py 980-1066, [sort_by_thresh].  The result: columns of the frame afterwards, its rows
    (the input frame keeps its order but gets the two columns) and the rows of the sorted frame.
    Without the threshold column: KeyError.  The fallback at line 1060 is never reached, since the second
    regular expression matches every text. *)
Definition sort_by_thresh (columns : list string) (data : tdata) (sort_column_name : string) (ascending : bool)
  : res (list string * tdata * tdata) :=
  match index_of sort_column_name columns with
  | None => Err KeyError
  | Some i =>
      cells <- column_at data i ;;
      parsed <- mapM parse_thresh cells ;;
      wts <- mapM (fun p => operator_wt (fst p)) parsed ;;
      vals <- thresh_values (map snd parsed) ;;
      let columns1 := add_column columns "op_wts" in
      let data1 := map (fun rw => set_cell columns "op_wts" (CNum (snd rw)) (fst rw)) (combine data wts) in
      let columns2 := add_column columns1 "thresh_values" in
      let data2 := map (fun rv => set_cell columns1 "thresh_values" (value_cell (snd rv)) (fst rv)) (combine data1 vals) in
      let keyed := combine (combine vals wts) data2 in
      let le a b := if ascending then key_le (fst a) (fst b) else key_le (fst b) (fst a) in
      Ok (columns2, data2, map snd (sort_by le keyed))
  end.

(** ** The ROC table *)
(** [np.sort(np.unique(...))] of texts. *)
Fixpoint uniq_text (l : list string) : list string :=
  match l with
  | a :: ((b :: _) as t) => if String.eqb a b then uniq_text t else a :: uniq_text t
  | _ => l
  end.
Definition text_le (a b : string) : bool := match String.compare a b with Gt => false | _ => true end.
Definition np_unique (l : list string) : list string := uniq_text (sort_by text_le l).

(** The thresholds as strings: after [sort_by_thresh] there are no other cells. *)
Definition text_of (c : cell) : res string := match c with CStr s => Ok s | _ => Err TypeError end.

Record roc_row : Type := RocRow { thresh : string; pody : pyval; pofd : pyval }.

(** ctc_statistics.py 188-233, [calculate_ctc_roc]. *)
Definition calculate_ctc_roc (columns : list string) (data : tdata) (ascending : bool) : res (list roc_row) :=
  out <- sort_by_thresh columns data "fcst_thresh" ascending ;;
  let '(columns', _, sorted_data) := out in
  match index_of "fcst_thresh" columns' with
  | None => Err KeyError
  | Some i =>
      cells <- column_at sorted_data i ;;
      texts <- mapM text_of cells ;;
      let list_thresh := np_unique texts in
      let list_thresh := if ascending then list_thresh else rev list_thresh in
      mapM (fun th =>
        let subset_data := filter (fun r => match nth_error r i with Some (CStr s) => String.eqb s th | _ => false end) sorted_data in
        p <- calculate_pody subset_data columns' ;;
        f <- calculate_pofd subset_data columns' ;;
        Ok (RocRow th p f)) list_thresh
  end.
End Sort.
