(** Model of metcalcpy/contributed/blocking_weather_regime: the files of Blocking_WeatherRegime_util.py ([write_mpr_file],
    [read_nc_met]), and the choice of the number of regimes ([run_elbow]) and the file of regimes ([write_K_means_file]) of
    WeatherRegime.py. *)
From Coq Require Import Reals Qreals.
From Verif Require Import PyBase ColumnModel.
From Verif Require DriveModel.
From Coq Require Import Ascii List.
Open Scope string_scope.

(** What a file holds: lines of text, or the times (days since the first one), dates and numbers of a netCDF file. *)
Inductive content : Type := Text (lines : list string) | NetCdf (records : list (Z * string * Q)).
Definition disk : Type := string -> option content.
Definition put (path : string) (c : option content) (w : disk) : disk := fun p => if String.eqb p path then c else w p.

Fixpoint spaces (n : nat) : string := match n with O => "" | S m => String " "%char (spaces m) end.
(** ['%-Ns' % text] and ['%Ns' % text]. *)
Definition ljust (width : nat) (text : string) : string := text ++ spaces (width - String.length text).
Definition rjust (width : nat) (text : string) : string := spaces (width - String.length text) ++ text.
(** Formats separated by one blank. *)
Definition joined (fields : list string) : string := String.concat " " fields.

Definition at1 {A : Type} (l : list A) (i : nat) : res A := match nth_error l i with Some x => Ok x | None => Err IndexError end.
Definition at2 {A : Type} (l : list (list A)) (i j : nat) : res A := r <- at1 l i ;; at1 r j.
Definition at3 {A : Type} (l : list (list (list A))) (i j k : nat) : res A := r <- at2 l i j ;; at1 r k.

(** ** write_mpr_file *)
(** The two time arrays of a dictionary of times that the function uses, and its text arguments. *)
Record times : Type := Times { leads : list (list string); valids : list (list string) }.
Record texts : Type := Texts { mname : string; desc : string; fvar : string; funit : string; flev : string;
  ovar : string; ounit : string; olev : string; maskname : string; obslev : string }.

(** Blocking_WeatherRegime_util.py 38-46: the widths; that of DESC depends on the name of the model. *)
Definition width (least more : nat) (s : string) : nat := Nat.max least (String.length s) + more.
(** Blocking_WeatherRegime_util.py 48-50 *)
Definition header_widths (t : texts) : list nat :=
  [7; width 5 3 (mname t); width 4 1 (mname t); 12; 18; 18; 12; 17; 17; width 8 3 (fvar t);
   width 8 3 (funit t); width 8 3 (flev t); width 7 3 (ovar t); width 8 3 (ounit t); width 7 3 (olev t); 10; width 7 3 (maskname t);
   13; 13; 13; 13; 13; 13; 9]%nat.
(** Blocking_WeatherRegime_util.py 51-54 *)
Definition line_widths (t : texts) : list nat := (header_widths t ++ [10; 10; 10; 12; 12; 10; 10; 12; 12; 10; 10; 10; 10]%nat)%list.
Definition formatted (widths : list nat) (values : list string) : string :=
  joined (map (fun p => ljust (fst p) (snd p)) (combine widths values)).
(** Blocking_WeatherRegime_util.py 64-68 *)
Definition header_names : list string :=
  ["VERSION"; "MODEL"; "DESC"; "FCST_LEAD"; "FCST_VALID_BEG"; "FCST_VALID_END"; "OBS_LEAD"; "OBS_VALID_BEG"; "OBS_VALID_END";
   "FCST_VAR"; "FCST_UNITS"; "FCST_LEV"; "OBS_VAR"; "OBS_UNITS"; "OBS_LEV"; "OBTYPE"; "VX_MASK"; "INTERP_MTHD"; "INTERP_PNTS";
   "FCST_THRESH"; "OBS_THRESH"; "COV_THRESH"; "ALPHA"; "LINE_TYPE"].

Section Mpr.
(** ['%.4f' % x]; None is NaN. *)
Variable fixed4 : option Q -> string.
Variables (data_obs data_fcst : list (list (list (option Q)))) (lats lons : list (option Q)) (time_obs time_fcst : times) (t : texts)
  (outfile : string).

(** Blocking_WeatherRegime_util.py 69-74: the values of the line of a point. *)
Definition point_values (y dd dpt : nat) : res (list string) :=
  lead_f <- at2 (leads time_fcst) y dd ;; valid_f <- at2 (valids time_fcst) y dd ;;
  lead_o <- at2 (leads time_obs) y dd ;; valid_o <- at2 (valids time_obs) y dd ;;
  lat <- at1 lats dpt ;; lon <- at1 lons dpt ;; f <- at3 data_fcst y dd dpt ;; o <- at3 data_obs y dd dpt ;;
  Ok ["V9.1"; mname t; desc t; lead_f; valid_f; valid_f; lead_o; valid_o; valid_o; fvar t; funit t; flev t; ovar t; ounit t; olev t;
      "ADPUPA"; maskname t; "NEAREST"; "1"; "NA"; "NA"; "NA"; "NA"; "MPR"; DriveModel.nat_text (length lons);
      DriveModel.nat_text (S dpt); "NA"; fixed4 lat; fixed4 lon; obslev t; "NA"; fixed4 f; fixed4 o; "NA"; "NA"; "NA"; "NA"].
(** Blocking_WeatherRegime_util.py 68-74: the lines that are written, and the exception that ends the loop. *)
Fixpoint point_lines (y dd : nat) (todo : list nat) : list string * res unit :=
  match todo with
  | [] => ([], Ok tt)
  | dpt :: rest =>
      match point_values y dd dpt with
      | Err e => ([], Err e)
      | Ok values => let r := point_lines y dd rest in (formatted (line_widths t) values :: fst r, snd r)
      end
  end.
(** Blocking_WeatherRegime_util.py 60-62: the name of a file. *)
Definition mpr_name (lead valid : string) : string :=
  outfile ++ "_" ++ lead ++ "L_" ++ substring 0 8 valid ++ "_" ++ substring 9 6 valid ++ "V" ++ ".stat".
(** Blocking_WeatherRegime_util.py 56-74: what has been written stays if the loop ends with an exception. *)
Fixpoint write_files (todo : list (nat * nat)) (w : disk) : disk * res unit :=
  match todo with
  | [] => (w, Ok tt)
  | (y, dd) :: rest =>
      match at2 (valids time_fcst) y dd with
      | Err e => (w, Err e)
      | Ok valid =>
          if String.eqb valid "" then write_files rest w
          else match at2 (leads time_fcst) y dd with
               | Err e => (w, Err e)
               | Ok lead =>
                   let r := point_lines y dd (seq 0 (length lons)) in
                   let w' := put (mpr_name lead valid) (Some (Text (formatted (header_widths t) header_names :: fst r))) w in
                   match snd r with Ok _ => write_files rest w' | Err e => (w', Err e) end
               end
      end
  end.
(** Blocking_WeatherRegime_util.py 30-74; [bdims] is the shape of [data_obs]. *)
Definition write_mpr_file (w : disk) : disk * res unit :=
  write_files (list_prod (seq 0 (length data_obs)) (seq 0 (match data_obs with [] => 0 | d :: _ => length d end))) w.
End Mpr.

(** ** read_nc_met *)
(** A variable of a MET file: its grid of numbers, each with its mask, and the two time attributes. *)
Record nc_var : Type := NcVar { nc_lats : list Q; nc_lons : list Q; nc_grid : list (list (Q * bool)); nc_init : string; nc_valid : string }.

(** [str(n)] and [.zfill(2)]. *)
Definition int_text (z : Z) : string :=
  if Z.ltb z 0 then "-" ++ DriveModel.nat_text (Z.to_nat (- z)) else DriveModel.nat_text (Z.to_nat z).
Definition zfill2 (s : string) : string := if Nat.ltb (String.length s) 2 then "0" ++ s else s.
(** Blocking_WeatherRegime_util.py 108-111; [d] is the lead in seconds. *)
Definition lead_text (d : Z) : string :=
  let leadmin := Z.div d 60 in let leadsec := Z.modulo d 60 in
  let leadhr := Z.div leadmin 60 in let leadmin := Z.modulo leadmin 60 in
  zfill2 (int_text leadhr) ++ zfill2 (int_text leadmin) ++ zfill2 (int_text leadsec).

(** [np.reshape] of a list to [n] rows of [m]. *)
Fixpoint rows_of {A : Type} (n m : nat) (l : list A) : list (list A) :=
  match n with O => [] | S k => firstn m l :: rows_of k m (skipn m l) end.
Definition reshape2 {A : Type} (n m : nat) (l : list A) : res (list (list A)) :=
  if Nat.eqb (length l) (n * m) then Ok (rows_of n m l) else Err ValueError.

Section Read.
(** [netCDF4.Dataset(path)] with its variables 'lat', 'lon' and the wanted one; the same at each opening. *)
Variable open_nc : string -> res nc_var.
(** [datetime.strptime(text, '%Y%m%d_%H%M%S')], in seconds. *)
Variable seconds : string -> res Z.

Definition grid_shape (g : list (list (Q * bool))) : nat * nat := (length g, match g with [] => 0 | r :: _ => length r end)%nat.
(** Blocking_WeatherRegime_util.py 101-121: one file.  Assigning a masked array to a part of an array keeps the numbers under
    the mask.  Simplification: numpy would also repeat a grid with one row or column; that is not modelled. *)
Definition read_one (n m : nat) (file : string) : res (list (list (option Q)) * string * string * string) :=
  if String.eqb file "missing" then Ok (repeat (repeat None m) n, "", "", "")
  else
    v <- open_nc file ;;
    valid <- seconds (nc_valid v) ;; init <- seconds (nc_init v) ;;
    let s := grid_shape (nc_grid v) in
    if Nat.eqb (fst s) n && Nat.eqb (snd s) m then
      Ok (map (map (fun c => Some (fst c))) (nc_grid v), nc_init v, nc_valid v, lead_text (valid - init))
    else if Nat.eqb (fst s) 1 || Nat.eqb (snd s) 1 then Err NotModelled else Err ValueError.
(** Blocking_WeatherRegime_util.py 77-131.  The exception of line 83 is a plain Exception, here a RuntimeError.  The result:
    the grids, the latitudes and longitudes, and the initial times, valid times and leads, all by season and day. *)
Definition read_nc_met (infiles : list string) (nseasons dseasons : nat) :
  res (list (list (list (list (option Q)))) * list Q * list Q * (list (list string) * list (list string) * list (list string))) :=
  match find (fun fn => negb (String.eqb fn "missing")) infiles with
  | None => Err RuntimeError
  | Some locin =>
      first <- open_nc locin ;;
      let s := grid_shape (nc_grid first) in
      if Nat.eqb (fst s) 0 || Nat.eqb (snd s) 0 then Err IndexError
      else
        files <- mapM (read_one (fst s) (snd s)) infiles ;;
        var_4d <- reshape2 nseasons dseasons (map (fun r => fst (fst (fst r))) files) ;;
        init <- reshape2 nseasons dseasons (map (fun r => snd (fst (fst r))) files) ;;
        valid <- reshape2 nseasons dseasons (map (fun r => snd (fst r)) files) ;;
        lead <- reshape2 nseasons dseasons (map snd files) ;;
        Ok (var_4d, nc_lats first, nc_lons first, (init, valid, lead))
  end.
End Read.

(** ** run_elbow *)
(** WeatherRegime.py 88-89: the numbers are multiplied by 10**-10. *)
Definition unit10 : Q := 1 # 10000000000.
(** WeatherRegime.py 92-96: the distance of point [i]; None is NaN. *)
Definition elbow_distance (curve : list Q) (i : nat) : res (option R) :=
  first <- at1 curve 0 ;; last <- at1 curve (length curve - 1) ;; v <- at1 curve i ;;
  let dx := inject_Z (Z.of_nat (length curve - 1)) in
  let cross := dx * (v - first) - (last - first) * inject_Z (Z.of_nat i) in
  let square := dx * dx + (last - first) * (last - first) in
  Ok (if Qeq_bool square 0 then None else Some (Q2R cross / sqrt (Q2R square))%R).
(** [np.where(d == d.min())]: no place if there is a NaN. *)
Fixpoint all_present {A : Type} (l : list (option A)) : option (list A) :=
  match l with [] => Some [] | None :: _ => None | Some x :: t => match all_present t with Some r => Some (x :: r) | None => None end end.
Definition least (l : list R) : option R := match l with [] => None | x :: t => Some (fold_left Rmin t x) end.
Definition places (d : list R) : list nat :=
  match least d with
  | None => []
  | Some m => filter (fun i => match nth_error d i with Some x => if Req_EM_T x m then true else false | None => false end) (seq 0 (length d))
  end.
(** WeatherRegime.py 69-102 after the clusterings: [inertia] are the sums of squared distances for 1 to numi - 1 clusters.
    [lstsq] of the two end points is the line through them; of one point twice, the solution of least norm.  The result: K,
    d, mi, line, curve. *)
Definition run_elbow (inertia : list Q) : res (list nat * list (option R) * list nat * list Q * list Q) :=
  let n := length inertia in
  first <- at1 inertia 0 ;; last <- at1 inertia (n - 1) ;;
  let m := if Nat.eqb n 1 then first / 2 else (last - first) / inject_Z (Z.of_nat (n - 1)) in
  let c := if Nat.eqb n 1 then first / 2 else first - m in
  let K := seq 1 n in
  let line := map (fun k => (m * inject_Z (Z.of_nat k) + c) * unit10) K in
  let curve := map (fun s => s * unit10) inertia in
  d <- mapM (elbow_distance curve) (seq 0 n) ;;
  let mi := match all_present d with Some r => places r | None => [] end in
  Ok (K, d, mi, line, curve).

(** ** write_K_means_file *)
Section Regimes.
(** [str] of a number of an array of text, [str(1.0)]; [datetime.datetime(int(year), int(month), int(day))] in days. *)
Variable show : Q -> string.
Variable day_number : string -> string -> string -> res Z.
(** WeatherRegime.py 28-35: the parameters, [path] is the name of the file without its ending. *)
Variables (outfile_type path : string).

(** WeatherRegime.py 195-198 *)
Definition year_of (vt : string) : string := substring 0 4 vt.
Definition month_of (vt : string) : string := substring 4 2 vt.
Definition day_of (vt : string) : string := substring 6 2 vt.
(** WeatherRegime.py 252 *)
Definition regime_line (x : string * Q) : string :=
  joined [rjust 6 (year_of (fst x)); rjust 3 (month_of (fst x)); rjust 4 (day_of (fst x)); rjust 6 (show (snd x))].
(** WeatherRegime.py 186-252; [valid] and [wrc] by season and day.  An array of no days: line 208 is an IndexError. *)
Definition write_K_means_file (valid : list (list string)) (wrc : list (list Q)) (w : disk) : disk * res unit :=
  let wrc_1d := List.concat wrc in
  let valid_1d := List.concat valid in
  if negb (Nat.eqb (length valid_1d) (length wrc_1d)) then (w, Err ValueError)
  else if String.eqb outfile_type "netcdf" then
    let full := path ++ ".nc" in
    let w := put full None w in
    match (rdate <- (vt <- at1 valid_1d 0 ;; day_number (year_of vt) (month_of vt) (day_of vt)) ;;
           mapM (fun x => day <- day_number (year_of (fst x)) (month_of (fst x)) (day_of (fst x)) ;;
                          Ok (day - rdate, year_of (fst x) ++ month_of (fst x) ++ day_of (fst x), snd x)%Z) (combine valid_1d wrc_1d)) with
    | Ok records => (put full (Some (NetCdf records)) w, Ok tt)
    | Err e => (w, Err e)
    end
  else if String.eqb outfile_type "text" then
    (put (path ++ ".txt") (Some (Text ("# Year Month Day WeatherRegime" :: map regime_line (combine valid_1d wrc_1d)))) w, Ok tt)
  else (w, Ok tt).
End Regimes.
