(** The program that computes spectra of several data sets, metcalcpy/contributed/spacetime/cross_spectra.py, and the files it writes
    ([save_Spectra] of spacetime_utils.py).  The names of the input files, the reading of them and of the configuration and the making of the
    output directory are not modelled: the program starts with four data sets and settings.  Symmetric parts ([get_symmasymm]) and spectra
    ([mjo_cross]) are parameters; the removal of axes of length one is part of them. *)
From Coq Require Import List ZArith QArith String Ascii Bool.
From Verif Require Import PyBase ColumnModel RocModel.
Import ListNotations.
Open Scope string_scope.

(** ** Files *)

(** An array: the lengths of its axes and its values in order. *)
Record array (V : Type) : Type := Array { shape : list nat; values : list V }.
Arguments Array {V}.
Arguments shape {V}.
Arguments values {V}.

(** A netCDF file of spectra: the lengths of the axes, the values along the axes, the spectra and their names.  [Unfinished] is a file that was
    opened, and in which nothing is defined. *)
Inductive content (V : Type) : Type :=
| Unfinished
| Spectra (nvar nfrq nwave : nat) (freq : list Q) (wnum var : list Z) (stc : list V) (varnames : list string).
Arguments Unfinished {V}.
Arguments Spectra {V}.
Definition disk (V : Type) : Type := string -> option (content V).
Definition put {V : Type} (path : string) (c : content V) (d : disk V) : disk V :=
  fun p => if String.eqb p path then Some c else d p.

(** [os.path.join(a, b)] on POSIX systems. *)
Definition starts_slash (s : string) : bool := match s with String c _ => Ascii.eqb c "/" | EmptyString => false end.
Fixpoint ends_slash (s : string) : bool :=
  match s with
  | EmptyString => false
  | String c EmptyString => Ascii.eqb c "/"
  | String _ rest => ends_slash rest
  end.
Definition path_join (a b : string) : string :=
  if starts_slash b then b
  else if String.eqb a "" || ends_slash a then a ++ b
  else a ++ "/" ++ b.

(** A number stored as an integer: C cuts off the fraction. *)
Definition to_int (q : Q) : Z := Z.quot (Qnum q) (Z.pos (Qden q)).

(** spacetime_utils.py 47 *)
Definition varnames : list string := ["PX"; "PY"; "CXY"; "QXY"; "COH2"; "PHA"; "V1"; "V2"].

(** spacetime_utils.py 32-61, the part of [save_Spectra] after the name of the file is known.  An array that does not have three axes
    is a ValueError, when the file is already open for writing.  Axes must have as many values as the array has; what netCDF4 makes of
    others is not modelled. *)
Definition write_spectra {V : Type} (full_filename : string) (d : disk V) (STCin : array V) (freq_in wnum_in : list Q) : disk V * res unit :=
  match shape STCin with
  | [nvar; nfrq; nwave] =>
      if Nat.eqb (List.length freq_in) nfrq && Nat.eqb (List.length wnum_in) nwave then
        (put full_filename (Spectra nvar nfrq nwave freq_in (map to_int wnum_in) (map Z.of_nat (seq 0 nvar)) (values STCin) varnames) d, Ok tt)
      else (put full_filename Unfinished d, Err NotModelled)
  | _ => (put full_filename Unfinished d, Err ValueError)
  end.
(** spacetime_utils.py 29-61, [save_Spectra]. *)
Definition save_Spectra {V : Type} (d : disk V) (STCin : array V) (freq_in wnum_in : list Q) (filename filepath : string) : disk V * res unit :=
  write_spectra (path_join filepath (filename ++ ".nc")) d STCin freq_in wnum_in.
(** tropical_diagnostics/utils.py 29-59, the other [save_Spectra]: it differs in the name of the file only. *)
Definition save_Spectra_diagnostics {V : Type} (d : disk V) (STCin : array V) (freq_in wnum_in : list Q) (filename filepath : string)
  : disk V * res unit :=
  write_spectra (filepath ++ filename ++ ".nc") d STCin freq_in wnum_in.

(** ** The program *)
Section Program.
(** Values along longitudes at one time and latitude; values of spectra. *)
Variables L V : Type.

(** A variable of a data set: its latitudes, and for each time a row for each latitude. *)
Record field : Type := Field { lats : list Q; days : list (Q * list L) }.

(** What [mjo_cross] returns, as far as it is used. *)
Record spectrum : Type := Spectrum { STC : array V; freq : list Q; wave : list Z }.

(** [get_symmasymm(x, lat, symmetry)] and [mjo_cross(x, y, nperseg, segOverLap)]. *)
Variable get_symmasymm : field -> list Q -> string -> res field.
Variable mjo_cross : field -> field -> Z -> Z -> res spectrum.
(** [str] of a number. *)
Variable show : Z -> string.

(** A path in the configuration: a list of texts, or a text. *)
Inductive setting : Type := Texts (l : list string) | Text (s : string).
(** cross_spectra.py 41-76: the settings. *)
Record settings : Type := Settings {
  pathout : setting;
  model : string;
  spd : Z;
  nperseg : Z;
  segOverLap : Z;
  Symmetry : string;
  latMin : Q;
  latMax : Q;
  datestrt : Q;
  datelast : Q
}.
(** cross_spectra.py 41: [config_dict['pathout'][0]]. *)
Definition first_path (p : setting) : res string :=
  match p with
  | Texts (s :: _) => Ok s
  | Text (String c _) => Ok (String c "")
  | _ => Err IndexError
  end.

(** [keys.sel(slice(lo, hi))]: which places of an index are taken.  On a descending index the slice goes down from [lo] to [hi].  An index
    without order is not modelled. *)
Fixpoint ordered (le : Q -> Q -> bool) (l : list Q) : bool :=
  match l with
  | a :: ((b :: _) as rest) => le a b && ordered le rest
  | _ => true
  end.
Definition between (lo hi k : Q) : bool := Qle_bool lo k && Qle_bool k hi.
Definition slice (lo hi : Q) (keys : list Q) : res (list bool) :=
  if ordered Qle_bool keys then Ok (map (between lo hi) keys)
  else if ordered (fun a b => Qle_bool b a) keys then Ok (map (between hi lo) keys)
  else Err NotModelled.
Fixpoint take {A : Type} (mask : list bool) (l : list A) : list A :=
  match mask, l with
  | b :: mask', x :: l' => if b then x :: take mask' l' else take mask' l'
  | _, _ => []
  end.
(** cross_spectra.py 88-92 (and 95-99, 105-109, 114-118): the latitudes and times asked for. *)
Definition select (cfg : settings) (f : field) : res field :=
  m <- slice (latMin cfg) (latMax cfg) (lats f) ;;
  t <- slice (datestrt cfg) (datelast cfg) (map fst (days f)) ;;
  Ok (Field (take m (lats f)) (map (fun d => (fst d, take m (snd d))) (take t (days f)))).
(** cross_spectra.py 104 and 113, [ds.sortby('lat', ascending=True)]. *)
Definition by_key {A : Type} (a b : Q * A) : bool := Qle_bool (fst a) (fst b).
Definition sortby (f : field) : field :=
  Field (map fst (sort_by by_key (combine (lats f) (lats f))))
        (map (fun d => (fst d, map snd (sort_by by_key (combine (lats f) (snd d))))) (days f)).

(** cross_spectra.py 124: [any(latA - latB) != 0].  xarray subtracts latitudes that are equal, and drops the others. *)
Definition latitudes_differ (latA latB : list Q) : bool :=
  existsb (fun a => existsb (fun b => Qeq_bool a b && negb (Qeq_bool (a - b) 0)) latB) latA.
(** cross_spectra.py 125 *)
Definition warning : string := "Latitudes must be the same for both variables! Check latitude ordering.".

(** [X.sel(time=Z.time)], cross_spectra.py 179; the times of a data set are different from each other. *)
Fixpoint at_time (l : list (Q * list L)) (t : Q) : res (Q * list L) :=
  match l with
  | d :: rest => if Qeq_bool (fst d) t then Ok d else at_time rest t
  | [] => Err KeyError
  end.
Definition sel_times (f : field) (times : list Q) : res field := l <- mapM (at_time (days f)) times ;; Ok (Field (lats f) l).

(** cross_spectra.py 158-166 (and 168-176, 178-187): one spectrum, and its file. *)
Definition cross_and_save (cfg : settings) (path : string) (per_day : Z) (fileout : string) (d : disk V) (a b : field) : disk V * res unit :=
  match mjo_cross a b (nperseg cfg * spd cfg) (segOverLap cfg * spd cfg) with
  | Ok r => save_Spectra d (STC r) (map (fun q => q * inject_Z per_day)%Q (freq r)) (map inject_Z (wave r)) fileout path
  | Err e => (d, Err e)
  end.

(** cross_spectra.py 128-137.  The second wind [w] has replaced the latitudes of the first. *)
Definition parts (cfg : settings) (x y z w : field) : res (field * field * field * field) :=
  if String.eqb (Symmetry cfg) "symm" || String.eqb (Symmetry cfg) "asymm" then
    X <- get_symmasymm x (lats x) (Symmetry cfg) ;;
    Y <- get_symmasymm y (lats w) (Symmetry cfg) ;;
    Z <- get_symmasymm z (lats z) (Symmetry cfg) ;;
    W <- get_symmasymm w (lats w) (Symmetry cfg) ;;
    Ok (X, Y, Z, W)
  else Ok (x, y, z, w).

(** cross_spectra.py 164, 174 and 185: the names of the files. *)
Definition name_850 (cfg : settings) : string := "SpaceTimeSpectra_" ++ model cfg ++ "_P_D850_" ++ Symmetry cfg ++ "_" ++ show (spd cfg) ++ "spd".
Definition name_200 (cfg : settings) : string := "SpaceTimeSpectra_" ++ model cfg ++ "_P_D200_" ++ Symmetry cfg ++ "_" ++ show (spd cfg) ++ "spd".
Definition name_rain (cfg : settings) : string := "SpaceTimeSpectra_ERAI_" ++ model cfg ++ "_P_" ++ Symmetry cfg ++ "_" ++ show 2 ++ "spd".

(** cross_spectra.py 41-187: [z] is the rain to verify against, [x] that of the model, [y] and [w] the winds.  The result: the files, the
    warnings, and an exception or none. *)
Definition program (cfg : settings) (z x y w : field) (d : disk V) : disk V * list string * res unit :=
  let prepared :=
    path <- first_path (pathout cfg) ;;
    z' <- select cfg z ;;
    x' <- select cfg x ;;
    y' <- select cfg (sortby y) ;;
    w' <- select cfg (sortby w) ;;
    Ok (path, z', x', y', w') in
  match prepared with
  | Err e => (d, [], Err e)
  | Ok (path, z', x', y', w') =>
      let warnings := if latitudes_differ (lats x') (lats w') then [warning] else [] in
      match parts cfg x' y' z' w' with
      | Err e => (d, warnings, Err e)
      | Ok (X, Y, Z, W) =>
          match cross_and_save cfg path (spd cfg) (name_850 cfg) d X Y with
          | (d1, Err e) => (d1, warnings, Err e)
          | (d1, Ok _) =>
              match cross_and_save cfg path (spd cfg) (name_200 cfg) d1 X W with
              | (d2, Err e) => (d2, warnings, Err e)
              | (d2, Ok _) =>
                  match sel_times X (map fst (days Z)) with
                  | Err e => (d2, warnings, Err e)
                  | Ok X' => let (d3, r) := cross_and_save cfg path 2 (name_rain cfg) d2 X' Z in (d3, warnings, r)
                  end
              end
          end
      end
  end.
End Program.
Arguments Field {L}.
Arguments lats {L}.
Arguments days {L}.
Arguments Spectrum {V}.
Arguments STC {V}.
Arguments freq {V}.
Arguments wave {V}.
