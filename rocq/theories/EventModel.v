(** Event equalization: metcalcpy/event_equalize.py and
    metcalcpy/event_equalize_against_values.py. *)
From Coq Require Import Ascii.
From Verif Require Import PyBase ColumnModel.
Open Scope string_scope.

(** Membership in a list of strings. *)
Definition mem (x : string) (l : list string) : bool := existsb (String.eqb x) l.

(** itertools.product: the last list varies fastest. *)
Fixpoint product {A : Type} (ls : list (list A)) : list (list A) :=
  match ls with
  | [] => [[]]
  | l :: rest => flat_map (fun x => map (cons x) (product rest)) l
  end.

(** A decimal digit ([\d] restricted to ASCII). *)
Definition is_digit (c : ascii) : bool :=
  let n := nat_of_ascii c in Nat.leb 48 n && Nat.leb n 57.
(** [\s] restricted to ASCII white space. *)
Definition is_space (c : ascii) : bool :=
  let n := nat_of_ascii c in Nat.eqb n 32 || (Nat.leb 9 n && Nat.leb n 13).

(** Value of a non-empty string of digits. *)
Fixpoint digits_value (acc : Z) (s : string) : option Z :=
  match s with
  | EmptyString => Some acc
  | String c rest =>
      if is_digit c then digits_value (acc * 10 + Z.of_nat (nat_of_ascii c - 48)) rest else None
  end.
Definition unsigned_value (s : string) : option Z :=
  match s with EmptyString => None | _ => digits_value 0 s end.

(** [int(s)], [None] for ValueError.  Simplification: an optional sign followed by ASCII
    digits; surrounding blanks, underscores and other alphabets' digits are not accepted. *)
Definition parse_int (s : string) : option Z :=
  match s with
  | String "-" rest => match unsigned_value rest with Some z => Some (- z)%Z | None => None end
  | String "+" rest => unsigned_value rest
  | _ => unsigned_value s
  end.

(** [s.split(sep)] for a one-character separator. *)
Fixpoint split_on (sep : ascii) (s : string) : list string :=
  match s with
  | EmptyString => [""]
  | String c rest =>
      if Ascii.eqb c sep then "" :: split_on sep rest
      else match split_on sep rest with
           | w :: ws => String c w :: ws
           | [] => [String c ""]
           end
  end.

(** metcalcpy/__init__.py: DATE_TIME_REGEX = \d{4}-\d{2}-\d{2}\s\d{2}:\d{2}:\d{2} as a list of
    19 character tests. *)
Definition is_char (a : ascii) : ascii -> bool := Ascii.eqb a.
Definition date_time_pattern : list (ascii -> bool) :=
  let d := is_digit in
  [d; d; d; d; is_char "-"; d; d; is_char "-"; d; d; is_space; d; d; is_char ":"; d; d; is_char ":"; d; d].

(** Match the pattern at the head of [s]: the matched text and the rest. *)
Fixpoint match_pattern (p : list (ascii -> bool)) (s : string) : option (string * string) :=
  match p, s with
  | [], _ => Some ("", s)
  | _ :: _, EmptyString => None
  | t :: p', String c s' =>
      if t c then match match_pattern p' s' with
                  | Some (w, r) => Some (String c w, r)
                  | None => None
                  end
      else None
  end.

(** [re.findall]: leftmost non-overlapping matches; [fuel] is the length of the text. *)
Fixpoint findall_fuel (fuel : nat) (s : string) : list string :=
  match fuel with
  | O => []
  | S n =>
      match s with
      | EmptyString => []
      | String _ s' =>
          match match_pattern date_time_pattern s with
          | Some (w, r) => w :: findall_fuel n r
          | None => findall_fuel n s'
          end
      end
  end.
Definition findall_dates (s : string) : list string := findall_fuel (S (String.length s)) s.

(** event_equalize.py 82-86: ungroup one series value. *)
Definition ungroup (s : string) : list string :=
  match findall_dates s with
  | [] => split_on ":" s
  | l => l
  end.

(** event_equalize.py 54 *)
Definition exception_columns : list string :=
  [""; "fcst_valid_beg"; "fcst_lead"; "fcst_valid"; "fcst_init"; "fcst_init_beg"; "VALID"; "LEAD"].

(** [d[key] = v] on an insertion-ordered dictionary. *)
Fixpoint dict_set {A : Type} (key : string) (v : A) (d : list (string * A)) : list (string * A) :=
  match d with
  | [] => [(key, v)]
  | (k, w) :: rest => if String.eqb k key then (key, v) :: rest else (k, w) :: dict_set key v rest
  end.

(** event_equalize.py 72-89: series variables.  A single string instead of a list of values
    is treated by the code as a one-element list and is given here in that form. *)
Fixpoint series_vars (series : list (string * list string)) (acc : list (string * list string))
  : list (string * list string) :=
  match series with
  | [] => acc
  | (var, vals) :: rest =>
      if mem var exception_columns then series_vars rest acc
      else series_vars rest (dict_set var (flat_map ungroup vals) acc)
  end.

(** event_equalize.py 91-98: fixed variables; [fix_vals_permuted[i]] is an IndexError when
    the list is too short. *)
Fixpoint fixed_vars (i : nat) (fix_vars : list string) (vals : list (list string))
  (acc : list (string * list string)) : res (list (string * list string)) :=
  match fix_vars with
  | [] => Ok acc
  | v :: rest =>
      if mem v exception_columns then fixed_vars (S i) rest vals acc
      else match nth_error vals i with
           | Some l => fixed_vars (S i) rest vals (dict_set v l acc)
           | None => Err IndexError
           end
  end.

Definition ee_vars (series : list (string * list string)) (fix_vars : list string)
  (fix_vals : list (list string)) : res (list (string * list string)) :=
  fixed_vars 0 fix_vars fix_vals (series_vars series []).

(** event_equalize.py 113-122: comparison of one cell with one permutation value. *)
Definition value_matches (v : string) (c : cell) : bool :=
  match parse_int v with
  | Some z => match c with CNum q => Qeq_bool q (inject_Z z) | _ => false end
  | None => if String.eqb v "NA" then match c with CMiss => true | _ => false end
            else match c with CStr t => String.eqb t v | _ => false end
  end.

Section EE.
(** Text of a number under [astype(str)]; it depends on the column type and is left open. *)
Variable show : Q -> string.

(** [astype(str)] of a cell. *)
Definition str_of (c : cell) : string :=
  match c with CNum q => show q | CMiss => "nan" | CStr s => s end.

(** event_equalize.py 58-70: the columns whose texts are joined by blanks to form the event
    key.  An already present 'equalize' column is used as it is (it is assumed to hold text). *)
Definition key_columns (columns : list string) (by_indep : bool) (indy : string) : res (list string) :=
  base <- (if mem "equalize" columns then Ok ["equalize"]
           else if mem "fcst_valid_beg" columns then Ok ["fcst_valid_beg"; "fcst_lead"]
           else if mem "fcst_valid" columns then Ok ["fcst_valid"; "fcst_lead"]
           else Err KeyError) ;;
  let all := if by_indep && negb (mem indy exception_columns) then (base ++ [indy])%list else base in
  if forallb (fun c => mem c columns) all then Ok all else Err KeyError.

(** Cell of a named column. *)
Definition get (columns : list string) (r : row) (name : string) : res cell :=
  match index_of name columns with Some i => cell_at i r | None => Err KeyError end.

Definition row_key (columns : list string) (kcols : list string) (r : row) : res string :=
  cs <- mapM (get columns r) kcols ;; Ok (String.concat " " (map str_of cs)).

(** A table row with its event key. *)
Notation keyed := (string * row)%type.

(** event_equalize.py 111-122: sequential filters of one permutation. *)
Fixpoint select_rows (columns : list string) (names vals : list string) (rows : list keyed)
  : res (list keyed) :=
  match names, vals with
  | n :: ns, v :: vs =>
      match index_of n columns with
      | None => Err KeyError
      | Some i =>
          bs <- mapM (fun kr => c <- cell_at i (snd kr) ;; Ok (value_matches v c)) rows ;;
          select_rows columns ns vs (mask bs rows)
      end
  | _, _ => Ok rows
  end.

(** event_equalize.py 106-157: running intersection of the cases; [None] before the first
    permutation.  The printed warnings are not modelled. *)
Fixpoint cases_loop (columns names : list string) (rows : list keyed) (perms : list (list string))
  (cases : option (list string)) : res (list string) :=
  match perms with
  | [] => Ok (match cases with Some l => l | None => [] end)
  | p :: rest =>
      sel <- select_rows columns names p rows ;;
      let keys := map fst sel in
      cases_loop columns names rows rest
        (Some (match cases with None => keys | Some l => filter (fun k => mem k keys) l end))
  end.

(** event_equalize.py 26-171.  The result is given as rows with their keys; the code stores
    the key in the column 'equalize'. *)
Definition event_equalize (data : tdata) (columns : list string) (indy : string)
  (series : list (string * list string)) (fix_vars : list string) (fix_vals : list (list string))
  (by_indep : bool) : res (list keyed) :=
  kcols <- key_columns columns by_indep indy ;;
  keys <- mapM (row_key columns kcols) data ;;
  let rows := combine keys data in
  vars <- ee_vars series fix_vars fix_vals ;;
  cases <- cases_loop columns (map fst vars) rows (product (map snd vars)) None ;;
  Ok (filter (fun kr => mem (fst kr) cases) rows).

(** event_equalize_against_values.py 21-67.  Without a valid-time column an empty frame is
    returned; an empty result is the empty frame too.  A missing 'fcst_lead' is a KeyError; the
    insertion of a second column 'equalize' is a ValueError. *)
Definition event_equalize_against_values (data : tdata) (columns : list string) (cases : list string)
  : res tdata :=
  if mem "fcst_valid" columns then
    if negb (mem "fcst_lead" columns) then Err KeyError
    else if mem "equalize" columns then Err ValueError
    else
      keys <- mapM (row_key columns ["fcst_valid"; "fcst_lead"]) data ;;
      Ok (map snd (filter (fun kr => mem (fst kr) cases) (combine keys data)))
  else Ok [].
End EE.
