(** Writing an interpolated dataset: metcalcpy/vertical_interp.py, [write_dataset] and the end of the program.  Datasets of xarray and
    files of netCDF4 are records. *)
From Verif Require Import PyBase ColumnModel EventModel.
From Coq Require Import String Ascii List.
Import ListNotations.
Open Scope string_scope.
Open Scope Z_scope.

(** Types of values of numpy. *)
Inductive dtype : Type := Float64 | Float32 | Int64 | Int32 | UInt64 | UInt32 | SmallInt | SmallUInt | Boolean | Datetime | OtherType.
(** A data variable of a dataset: dimensions, values in the order of the array (NaN is [None]; times are nanoseconds since 1970), attributes. *)
Record field : Type := { fname : string; ftype : dtype; fdims : list string; fvalues : list pyval; fattrs : list (string * string) }.
(** Coordinates of a dimension: numbers, or times in nanoseconds since 1970. *)
Inductive coord : Type := Numbers (t : dtype) (v : list pyval) | Times (v : list Z).
(** A dataset: its dimensions with their coordinates (xarray gives 0, 1, … as [Int64] for a dimension without), its data variables, its
    attributes. *)
Record dset : Type := { dims : list (string * coord); fields : list field; dattrs : list (string * string) }.
(** A variable of a file; a file. *)
Record ncvar : Type := { vname : string; vtype : dtype; vdims : list string; vvalues : list pyval; vattrs : list (string * string) }.
Record ncfile : Type := { ncdims : list (string * nat); ncvars : list ncvar; ncattrs : list (string * string) }.

(** [createDimension], [createVariable] followed by the assignment of all values: netCDF4 refuses a name in use. *)
Definition create_dim (name : string) (n : nat) (f : ncfile) : res ncfile :=
  if existsb (fun d => String.eqb name (fst d)) (ncdims f) then Err RuntimeError
  else Ok {| ncdims := (ncdims f ++ [(name, n)])%list; ncvars := ncvars f; ncattrs := ncattrs f |}.
Definition create_var (v : ncvar) (f : ncfile) : res ncfile :=
  if existsb (fun w => String.eqb (vname v) (vname w)) (ncvars f) then Err RuntimeError
  else Ok {| ncdims := ncdims f; ncvars := (ncvars f ++ [v])%list; ncattrs := ncattrs f |}.
(** [setattr]; attributes that netCDF4 refuses, as _FillValue, are not modelled. *)
Fixpoint put_attr (a : string * string) (l : list (string * string)) : list (string * string) :=
  match l with
  | [] => [a]
  | b :: l' => if String.eqb (fst a) (fst b) then a :: l' else b :: put_attr a l'
  end.
(** The variable [var] of the program is the one created last in the loop over the fields: here its name. *)
Definition put_var_attr (var : option string) (a : string * string) (f : ncfile) : res ncfile :=
  match var with
  | None => Err UnboundLocalError
  | Some name => Ok {| ncdims := ncdims f;
                       ncvars := map (fun v => if String.eqb name (vname v)
                                               then {| vname := vname v; vtype := vtype v; vdims := vdims v; vvalues := vvalues v; vattrs := put_attr a (vattrs v) |}
                                               else v) (ncvars f);
                       ncattrs := ncattrs f |}
  end.
(** [for a in l: …] with the file as the state. *)
Fixpoint each {A S : Type} (step : A -> S -> res S) (l : list A) (s : S) : res S :=
  match l with [] => Ok s | a :: l' => s' <- step a s ;; each step l' s' end.

(** vertical_interp.py 486, 521: the types that are kept. *)
Definition kept (t : dtype) : bool := match t with Float64 | Float32 | Int64 | Int32 | UInt64 | UInt32 => true | _ => false end.
(** vertical_interp.py 486-487 and 521-522: the types of coordinates and of fields in the file. *)
Definition coord_type (t : dtype) : dtype := if kept t then t else Float64.
Definition field_type (t : dtype) : dtype := if kept t then t else UInt64.
(** The value of an element of type [t] after it is assigned to a variable of type [field_type t]: small integers, truth values and
    times become unsigned numbers of 64 bits. *)
Definition stored (t : dtype) (v : pyval) : res pyval :=
  if kept t then Ok v
  else match t, v with
       | (SmallInt | SmallUInt | Boolean | Datetime), Some q => Ok (Some (inject_Z (Qfloor q mod 2 ^ 64)))
       | _, _ => Err NotModelled
       end.
(** [datetime.utcfromtimestamp(dt.astype('O')/1e9)]: microseconds, ties to even; the division is exact here. *)
Definition micro (ns : Z) : Z :=
  let q := ns / 1000 in let r := ns mod 1000 in
  if r <? 500 then q else if 500 <? r then q + 1 else if Z.even q then q else q + 1.
(** [total_seconds()] of a difference. *)
Definition seconds (us : Z) : Q := (inject_Z us / inject_Z 1000000)%Q.

(** vertical_interp.py 482-500: a dimension and its coordinates.  [time] gets the seconds since its first value.  Times for another name,
    numbers for [time], and other types are not modelled. *)
Definition write_dim (d : string * coord) (f : ncfile) : res ncfile :=
  match d with
  | (name, Numbers t v) =>
      if String.eqb name "time" || negb (kept t) then Err NotModelled
      else f <- create_dim name (length v) f ;;
           create_var {| vname := name; vtype := coord_type t; vdims := [name]; vvalues := v; vattrs := [] |} f
  | (name, Times v) =>
      if negb (String.eqb name "time") then Err NotModelled
      else f <- create_dim name (length v) f ;;
           let v := map micro v in
           let first := match v with [] => 0 | t0 :: _ => t0 end in
           create_var {| vname := name; vtype := coord_type Datetime; vdims := [name]; vvalues := map (fun t => Some (seconds (t - first))) v; vattrs := [] |} f
  end.
(** vertical_interp.py 506-509: [datetime.utcfromtimestamp(ds[name].astype('O')/1e9)] for a data variable with one value.  The argument is
    an array of xarray; that [datetime] takes it for the number it holds is an assumption about the versions of Python and xarray.
    Coordinates that are no dimensions are not modelled. *)
Definition time_of (ds : dset) (name : string) : res Z :=
  match find (fun x => String.eqb name (fname x)) (fields ds) with
  | None => Err KeyError
  | Some x => match fdims x, fvalues x with [], [Some q] => Ok (Qfloor q) | _, _ => Err NotModelled end
  end.

Section Write.
(** [str] of a time given by its microseconds since 1970, and the offset of the machine's local time from UTC at a local time, in seconds. *)
Variable time_text : Z -> string.
Variable offset : Z -> Z.

(** vertical_interp.py 502-513 *)
Definition write_valid_time (ds : dset) (f : ncfile) : res ncfile :=
  f <- create_dim "valid_time" 1 f ;;
  let v vals attrs := {| vname := "valid_time"; vtype := Float64; vdims := ["valid_time"]; vvalues := vals; vattrs := attrs |} in
  _ <- create_var (v [] []) f ;;
  valid <- time_of ds "valid_time" ;; init <- time_of ds "init_time" ;;
  create_var (v [Some (seconds (micro valid - micro init))] [("long_name", "valid_time"); ("units", "seconds since " ++ time_text (micro init))]) f.
(** vertical_interp.py 523-541, one field: the state holds the last variable and the file. *)
Definition write_field (create_time_dim : bool) (x : field) (s : option string * ncfile) : res (option string * ncfile) :=
  let '(var, f) := s in
  s <- (if create_time_dim && String.eqb (fname x) "valid_time" then Ok (var, f)
        else
          vals <- mapM (stored (ftype x)) (fvalues x) ;;
          f <- create_var {| vname := fname x; vtype := field_type (ftype x);
                             vdims := if create_time_dim then "valid_time" :: fdims x else fdims x; vvalues := vals; vattrs := [] |} f ;;
          Ok (Some (fname x), f)) ;;
  let '(var, f) := s in
  f <- each (put_var_attr var) (fattrs x) f ;; Ok (var, f).
(** Digits of a text. *)
Definition digit (c : ascii) : option Z :=
  let n := Z.of_nat (nat_of_ascii c) in if (48 <=? n) && (n <=? 57) then Some (n - 48) else None.
Fixpoint digits (s : string) (acc : Z) : option Z :=
  match s with
  | EmptyString => Some acc
  | String c s' => match digit c with Some d => digits s' (10 * acc + d) | None => None end
  end.
(** [int(s)]: signs, blanks and underlines are not modelled. *)
Definition odd_char (c : ascii) : bool := match digit c with Some _ => true | None => existsb (Ascii.eqb c) ["+"; "-"; "_"; " "]%char end.
Fixpoint all_odd (s : string) : bool := match s with EmptyString => true | String c s' => odd_char c && all_odd s' end.
Definition to_int (s : string) : res Z :=
  match s with
  | EmptyString => Err ValueError
  | _ => match digits s 0 with Some n => Ok n | None => if all_odd s then Err NotModelled else Err ValueError end
  end.
(** [datetime(yyyy, mm, dd, hh).timestamp()] of local time: days before the date in the calendar, less those before 1970. *)
Definition is_leap (y : Z) : bool := (y mod 4 =? 0) && (negb (y mod 100 =? 0) || (y mod 400 =? 0)).
Definition days_before_year (y : Z) : Z := let y := y - 1 in 365 * y + y / 4 - y / 100 + y / 400.
Definition days_in_month (y m : Z) : Z :=
  if m =? 2 then (if is_leap y then 29 else 28) else if (m =? 4) || (m =? 6) || (m =? 9) || (m =? 11) then 30 else 31.
Definition days_before_month (y m : Z) : Z :=
  fold_right Z.add 0 (map (fun i => days_in_month y (Z.of_nat i)) (seq 1 (Z.to_nat (m - 1)))).
Definition timestamp (y m d h : Z) : res Z :=
  if (1 <=? y) && (y <=? 9999) && (1 <=? m) && (m <=? 12) && (1 <=? d) && (d <=? days_in_month y m) && (0 <=? h) && (h <=? 23) then
    let local := ((days_before_year y + days_before_month y m + d - 719163) * 24 + h) * 3600 in
    Ok (local - offset local)
  else Err ValueError.
(** vertical_interp.py 547-562 *)
Definition write_ref_time (ref : string) (f : ncfile) : res ncfile :=
  f <- create_dim "forecast_reference_time" 1 f ;;
  let v vals := {| vname := "forecast_reference_time"; vtype := Float64; vdims := ["forecast_reference_time"]; vvalues := vals;
                   vattrs := [("long_name", "forecast_reference_time"); ("standard_name", "forecast_reference_time"); ("units", "seconds since 1970-01-01 00:00")] |} in
  _ <- create_var (v []) f ;;
  yyyy <- to_int (substring 0 4 ref) ;; mm <- to_int (substring 4 2 ref) ;; dd <- to_int (substring 6 2 ref) ;; hh <- to_int (substring 8 2 ref) ;;
  ts <- timestamp yyyy mm dd hh ;;
  create_var (v [Some (inject_Z ts)]) f.
(** vertical_interp.py 476-562, [write_dataset] to a new file; lines 515-520 do nothing. *)
Definition write_dataset (ds : dset) (ref : option string) (create_time_dim : bool) : res ncfile :=
  f <- each write_dim (dims ds) {| ncdims := []; ncvars := []; ncattrs := [] |} ;;
  f <- (if create_time_dim then write_valid_time ds f else Ok f) ;;
  s <- each (write_field create_time_dim) (fields ds) (None, f) ;;
  let f := snd s in
  let f := {| ncdims := ncdims f; ncvars := ncvars f; ncattrs := fold_left (fun l a => put_attr a l) (dattrs ds) (ncattrs f) |} in
  match ref with None => Ok f | Some ref => write_ref_time ref f end.

(** vertical_interp.py 610-611: [os.path.join(args.datadir, args.output)]. *)
Fixpoint last_char (s : string) : option ascii :=
  match s with EmptyString => None | String c EmptyString => Some c | String _ s' => last_char s' end.
Definition path_join (datadir output : string) : string :=
  match output with
  | String c _ => if Ascii.eqb c "/" then output
                  else match last_char datadir with None => output | Some d => if Ascii.eqb d "/" then datadir ++ output else datadir ++ "/" ++ output end
  | EmptyString => match last_char datadir with None => output | Some d => if Ascii.eqb d "/" then datadir else datadir ++ "/" end
  end.
(** vertical_interp.py 689-703, the end of the program: whatever goes wrong in writing, line 703 calls a method that files of netCDF4 do
    not have. *)
Definition write_output (datadir output : string) (ref_time_from_filename create_time_dim : bool) (ds : dset) : res ncfile :=
  let r :=
    if ref_time_from_filename then
      match split_on "." (path_join datadir output) with
      | _ :: ref :: _ => write_dataset ds (Some ref) create_time_dim
      | _ => Err IndexError
      end
    else write_dataset ds None create_time_dim in
  match r with Ok f => Ok f | Err NotModelled => Err NotModelled | Err _ => Err AttributeError end.
End Write.
