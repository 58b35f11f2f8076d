(** Words for the statements about the program of spectra and its files. *)
From Coq Require Import List ZArith QArith String Ascii Sorting.Sorted.
From Verif Require Import PyBase CrossModel.
Import ListNotations.
Open Scope string_scope.

(** The path of a file in a directory. *)
Definition EndsWithSlash (s : string) : Prop := exists p, s = p ++ "/".
Definition Inside (dir name path : string) : Prop :=
  ((dir = "" \/ EndsWithSlash dir) /\ path = dir ++ name) \/ (dir <> "" /\ ~ EndsWithSlash dir /\ path = dir ++ "/" ++ name).
(** The directory of a configuration: the first text of a list; of a single text, its first character. *)
Definition Directory (p : setting) (dir : string) : Prop :=
  (exists rest, p = Texts (dir :: rest)) \/ (exists c rest, p = Text (String c rest) /\ dir = String c "").

(** A variable has a value (along longitudes) at a time and latitude. *)
Definition ValueAt {L : Type} (f : field L) (t lat : Q) (v : L) : Prop :=
  exists i j row, nth_error (days f) i = Some (t, row) /\ nth_error (lats f) j = Some lat /\ nth_error row j = Some v.
(** A row for each latitude, at all times. *)
Definition Full {L : Type} (f : field L) : Prop := Forall (fun d => List.length (snd d) = List.length (lats f)) (days f).
(** From the smallest to the largest, and the other way. *)
Definition Ascending (l : list Q) : Prop := StronglySorted Qle l.
Definition Descending (l : list Q) : Prop := StronglySorted (fun a b => b < a)%Q l.
(** The values within the settings, with their latitudes in ascending order. *)
Definition Chosen {L : Type} (cfg : settings) (f g : field L) : Prop :=
  Ascending (lats g) /\
  forall t lat v, ValueAt g t lat v <->
    ValueAt f t lat v /\ (datestrt cfg <= t <= datelast cfg)%Q /\ (latMin cfg <= lat <= latMax cfg)%Q.
(** The symmetric or antisymmetric part if one is asked for, and otherwise the variable itself. *)
Definition Part {L : Type} (get_symmasymm : field L -> list Q -> string -> res (field L)) (symmetry : string) (f : field L) (latitudes : list Q)
    (g : field L) : Prop :=
  (In symmetry ["symm"; "asymm"] /\ get_symmasymm f latitudes symmetry = Ok g) \/ (~ In symmetry ["symm"; "asymm"] /\ g = f).
(** The rows of a variable at given times. *)
Definition AtTimes {L : Type} (f : field L) (times : list Q) (g : field L) : Prop :=
  lats g = lats f /\ Forall2 (fun t d => In d (days f) /\ (fst d == t)%Q) times (days g).

(** The names of the parts of a spectrum. *)
Definition part_names : list string := ["PX"; "PY"; "CXY"; "QXY"; "COH2"; "PHA"; "V1"; "V2"].

(** A file holds a spectrum: all its values, frequencies per day, whole wavenumbers, and the numbers of its parts. *)
Definition Holds {V : Type} (d : disk V) (path : string) (r : spectrum V) (per_day : Z) : Prop :=
  exists nvar nfrq nwave, shape (STC r) = [nvar; nfrq; nwave] /\ List.length (freq r) = nfrq /\ List.length (wave r) = nwave /\
    d path = Some (Spectra nvar nfrq nwave (map (fun q => q * inject_Z per_day)%Q (freq r)) (wave r) (map Z.of_nat (seq 0 nvar))
                     (values (STC r)) part_names).
Definition Finished {V : Type} (d : disk V) (path : string) : Prop := exists r per_day, Holds d path r per_day.

(** The names of the three files. *)
Definition low_name (show : Z -> string) (cfg : settings) : string :=
  "SpaceTimeSpectra_" ++ model cfg ++ "_P_D850_" ++ Symmetry cfg ++ "_" ++ show (spd cfg) ++ "spd.nc".
Definition high_name (show : Z -> string) (cfg : settings) : string :=
  "SpaceTimeSpectra_" ++ model cfg ++ "_P_D200_" ++ Symmetry cfg ++ "_" ++ show (spd cfg) ++ "spd.nc".
Definition rain_name (show : Z -> string) (cfg : settings) : string :=
  "SpaceTimeSpectra_ERAI_" ++ model cfg ++ "_P_" ++ Symmetry cfg ++ "_" ++ show 2%Z ++ "spd.nc".

(** For the examples: two times, two latitudes in descending order; a spectrum that counts the times. *)
Definition example_field : field Z := Field [10; -10]%Q [(0%Q, [1; 2]%Z); (1%Q, [3; 4]%Z)].
Definition example_rain : field Z := Field [-10; 10]%Q [(0%Q, [5; 6]%Z); (1%Q, [7; 8]%Z)].
Definition example_cross (a b : field Z) (n overlap : Z) : res (spectrum Z) :=
  Ok (Spectrum (Array [1; 1; 1]%nat [Z.of_nat (List.length (days a)) + n]%Z) [1 # 8]%Q [-1]%Z).
Definition example_settings : settings := Settings (Texts ["/out"]) "GFS" 4 15 (-5) "latband" (-15) 15 0 1.
