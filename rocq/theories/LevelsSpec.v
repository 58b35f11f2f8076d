(** Terms of the statements C147 and C148. *)
From Coq Require Import Reals String List.
From Verif Require Import VertSpec LevelsModel.
Import ListNotations.
Open Scope R_scope.

(** The dataset has the variable with these columns. *)
Definition HasColumns (ds : dataset) (name : string) (u : option string) (columns : list (list (option R))) : Prop :=
  NoDup (map fst (variables ds)) /\ In (name, {| units := u; data := OnLevels columns |}) (variables ds).
Definition HasSurface (ds : dataset) (name : string) (u : option string) (cells : list (option R)) : Prop :=
  NoDup (map fst (variables ds)) /\ In (name, {| units := u; data := Surface cells |}) (variables ds).
(** The settings ask for heights from pressures, or do not. *)
Definition FromPressure (cfg : config) : Prop :=
  height_setting cfg = Some true /\ coord_type_in cfg = Some "pressure"%string /\ coord_type_out cfg = Some "height"%string.
Definition FromField (cfg : config) (name : string) : Prop :=
  height_name cfg = Some name /\
  (height_setting cfg = Some false \/
   height_setting cfg = Some true /\ exists i, coord_type_in cfg = Some i /\
     (i <> "pressure"%string \/ exists o, coord_type_out cfg = Some o /\ o <> "height"%string)).
(** One unit of a is so many of b. *)
Definition UnitIs (unit_of : string -> option (string * R)) (a b : string) (c : R) : Prop :=
  exists d x y, unit_of a = Some (d, x) /\ unit_of b = Some (d, y) /\ c = x / y.
(** The value that is written: field, column and place among the levels asked for. *)
Definition Written (out : output) (name : string) (j k : nat) (v : option R) : Prop :=
  exists columns column, In (name, columns) (o_fields out) /\ nth_error columns j = Some column /\ nth_error column k = Some v.
(** Another setting of the type of the output. *)
Definition with_type_out (t : string) (c : config) : config :=
  Config (height_setting c) (coord_type_in c) (Some t) (height_name c) (pressure_name c) (zero_surface c) (geopotential_name c) (temperature_name c)
         (humidity_name c) (fields c) (dim_name c) (vertical_levels c) (level_units c).
Definition with_height_setting (b : bool) (c : config) : config :=
  Config (Some b) (coord_type_in c) (coord_type_out c) (height_name c) (pressure_name c) (zero_surface c) (geopotential_name c) (temperature_name c)
         (humidity_name c) (fields c) (dim_name c) (vertical_levels c) (level_units c).
(** Another unit for the levels asked for, and their numbers in it. *)
Definition with_levels (l : list R) (u : string) (c : config) : config :=
  Config (height_setting c) (coord_type_in c) (coord_type_out c) (height_name c) (pressure_name c) (zero_surface c) (geopotential_name c) (temperature_name c)
         (humidity_name c) (fields c) (dim_name c) (Some l) (Some u).
(** The factor that the program uses between a unit of the levels and one of the surfaces: units that are not known count as equal. *)
Definition Factor (unit_of : string -> option (string * R)) (lu su : string) (c : R) : Prop :=
  UnitIs unit_of lu su c \/ (unit_of lu = None \/ unit_of su = None) /\ c = 1.
(** The geopotential of the ground in a column: zero if so asked, else that of the dataset. *)
Definition Ground (cfg : config) (ds : dataset) (j : nat) (geopotential : R) : Prop :=
  zero_surface cfg = Some true /\ geopotential = 0 \/
  zero_surface cfg = Some false /\
  exists name u cells, geopotential_name cfg = Some name /\ HasSurface ds name u cells /\ nth_error cells j = Some (Some geopotential).
(** Pressures and virtual temperatures of a column. *)
Definition Layers (virtual : R -> option R -> option R -> option R) (pressures : list R) (t h : list (option R)) (layers : list (R * R)) : Prop :=
  map fst layers = pressures /\
  forall i p v, nth_error layers i = Some (p, v) -> exists a b, nth_error t i = Some a /\ nth_error h i = Some b /\ virtual p a b = Some v.
(** The height of a level by the hypsometric equation. *)
Definition height_of (ratio gravity geopotential ground : R) (layers : list (R * R)) (i : nat) : R :=
  geopotential / gravity + column_thickness ratio ground (firstn (S i) layers).

(** An example: one column of three levels; the unit of heights is the metre. *)
Definition units_example (u : string) : option (string * R) :=
  if String.eqb u "m" then Some ("length"%string, 1) else
  if String.eqb u "meter" then Some ("length"%string, 1) else
  if String.eqb u "km" then Some ("length"%string, 1000) else
  if String.eqb u "hPa" then Some ("pressure"%string, 100) else
  if String.eqb u "Pa" then Some ("pressure"%string, 1) else None.
Definition dataset_example : dataset :=
  Dataset "level" (Some "hPa"%string) [1000; 850; 700]
    [("HGT"%string, MakeVariable (Some "m"%string) (OnLevels [[Some 1000; Some 2000; Some 3000]]));
     ("UGRD"%string, MakeVariable (Some "m/s"%string) (OnLevels [[Some 10; Some 20; Some 30]]));
     ("PSFC"%string, MakeVariable (Some "Pa"%string) (Surface [Some 101000]));
     ("TMP"%string, MakeVariable (Some "K"%string) (OnLevels [[Some 280; Some 270; Some 260]]));
     ("RH"%string, MakeVariable (Some "%"%string) (OnLevels [[Some 50; Some 50; Some 50]]))]
    [("lat"%string, [40]); ("lon"%string, [250])] [("valid_time"%string, 6); ("time"%string, 0)] [("centre"%string, "kwbc"%string)].
Definition config_example : config :=
  Config (Some false) (Some "pressure"%string) (Some "height"%string) (Some "HGT"%string) (Some "PSFC"%string) (Some true) None (Some "TMP"%string)
         (Some "RH"%string) (Some ["UGRD"%string]) (Some "level"%string) (Some [1500]) (Some "m"%string).
