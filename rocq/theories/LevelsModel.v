(** The program of metcalcpy/vertical_interp.py between reading its input and writing its output (writing is in WriteModel.v).  Every
    field is given by its columns, one for each point of the grid; single columns are in VertModel.v.  Numbers are reals, NaN is [None]. *)
From Coq Require Import Reals String.
From Verif Require Import PyBase ColumnModel VertModel.
From Coq Require Import List.
Import ListNotations.
Open Scope R_scope.

(** A variable of the dataset: values on all levels of each column, or one value for each column. *)
Inductive values : Type := OnLevels (columns : list (list nan)) | Surface (cells : list nan).
Record variable : Type := MakeVariable { units : option string; data : values }.
(** A dataset: the name, unit and coordinates of the vertical dimension, the variables, coordinates of the grid, single times, and
    attributes. *)
Record dataset : Type := Dataset { dim : string; dim_units : option string; levels : list R; variables : list (string * variable);
                                   grid : list (string * list R); times : list (string * R); attributes : list (string * string) }.
(** What is to be written.  Fields with names of coordinates or times are not modelled. *)
Record output : Type := Output { o_times : list (string * R); o_lat : list R; o_lon : list R; o_attributes : list (string * string);
                                 o_levels : list R; o_fields : list (string * list (list nan)) }.
(** The settings; [None] is a key that is not there. *)
Record config : Type := Config { height_setting : option bool; coord_type_in : option string; coord_type_out : option string; height_name : option string;
                                 pressure_name : option string; zero_surface : option bool; geopotential_name : option string; temperature_name : option string;
                                 humidity_name : option string; fields : option (list string); dim_name : option string;
                                 vertical_levels : option (list R); level_units : option string }.
Definition key {A : Type} (x : option A) : res A := match x with Some v => Ok v | None => Err KeyError end.
Definition lookup {A : Type} (name : string) (l : list (string * A)) : res A := key (option_map snd (find (fun p => String.eqb (fst p) name) l)).
(** A dictionary with a new value for a key. *)
Fixpoint store {A : Type} (name : string) (v : A) (l : list (string * A)) : list (string * A) :=
  match l with [] => [(name, v)] | p :: rest => if String.eqb (fst p) name then (name, v) :: rest else p :: store name v rest end.

Section Levels.
(** The units that pint knows: what they measure, and their size in base units. *)
Variable unit_of : string -> option (string * R).
(** R_d / g, and g. *)
Variables ratio gravity : R.
(** MetPy's virtual temperature of pressure, temperature and relative humidity. *)
Variable virtual : R -> nan -> nan -> nan.

(** [float((ureg.Quantity(1, a) / ureg.Quantity(1, b)).to_base_units())]: an unknown unit is an UndefinedUnitError (an AttributeError),
    different quantities are a DimensionalityError (a TypeError). *)
Definition unit_ratio (a b : string) : res R :=
  match unit_of a, unit_of b with
  | Some (da, ra), Some (db, rb) => if String.eqb da db then Ok (ra / rb) else Err TypeError
  | _, _ => Err AttributeError
  end.
(** Columns of both together; other numbers of columns are not modelled. *)
Fixpoint zip_with {A B D : Type} (f : A -> B -> res D) (l : list A) (m : list B) : res (list D) :=
  match l, m with
  | [], [] => Ok []
  | a :: l', b :: m' => d <- f a b ;; t <- zip_with f l' m' ;; Ok (d :: t)
  | _, _ => Err NotModelled
  end.

(** vertical_interp.py 62-253, [vertical_interp], for all columns; [surfaces] and their unit. *)
Definition interp_field (cfg : config) (ds : dataset) (surfaces : list (list nan)) (surface_units : option string) (field : variable) : res (list (list nan)) :=
  lev_dim <- key (dim_name cfg) ;;
  match data field with
  | Surface _ => Err KeyError
  | OnLevels columns =>
      if negb (String.eqb lev_dim (dim ds)) then Err KeyError
      else
        targets <- key (vertical_levels cfg) ;;
        su <- key surface_units ;;
        lu <- key (level_units cfg) ;;
        length_convert <- (match unit_ratio lu su with Err AttributeError => Ok 1 | r => r end) ;;
        zip_with (fun z f => if Nat.eqb (List.length z) (List.length f) then VertModel.vertical_interp z length_convert f targets else Err NotModelled) surfaces columns
  end.

(** vertical_interp.py 445-473, [read_required_fields]. *)
Definition required_fields (cfg : config) (ds : dataset) : res (variable * variable * variable * variable) :=
  pn <- key (pressure_name cfg) ;; surface_pressure <- lookup pn (variables ds) ;;
  zero <- key (zero_surface cfg) ;;
  geopotential <- (if (zero : bool) then
                     Ok {| units := units surface_pressure;
                           data := match data surface_pressure with
                                   | Surface l => Surface (map (fun _ => Some 0) l)
                                   | OnLevels l => OnLevels (map (map (fun _ => Some 0)) l)
                                   end |}
                   else gn <- key (geopotential_name cfg) ;; lookup gn (variables ds)) ;;
  tn <- key (temperature_name cfg) ;; temperature <- lookup tn (variables ds) ;;
  hn <- key (humidity_name cfg) ;; humidity <- lookup hn (variables ds) ;;
  Ok (geopotential, surface_pressure, temperature, humidity).

(** vertical_interp.py 256-413 for one column: without a number at the ground no height is one. *)
Definition column_heights (pressure_convert : R) (pressures : list R) (ground : nan * nan) (column : list nan * list nan) : res (list nan) :=
  match ground with
  | (Some geopotential, Some surface_pressure) =>
      VertModel.height_from_pressure ratio gravity geopotential pressure_convert surface_pressure
        (map (fun x => (fst x, virtual (fst x) (fst (snd x)) (snd (snd x)))) (combine pressures (combine (fst column) (snd column))))
  | _ => match pressures with [] => Err IndexError | _ => Ok (map (fun _ => None) pressures) end
  end.
(** vertical_interp.py 256-413, [height_from_pressure], for all columns.  Fields of other kinds or sizes than these are not modelled. *)
Definition heights (cfg : config) (ds : dataset) (geopotential surface_pressure temperature humidity : variable) : res (list (list nan)) :=
  lev_dim <- key (dim_name cfg) ;;
  match data geopotential, data surface_pressure, data temperature, data humidity with
  | Surface zs, Surface ps, OnLevels t, OnLevels h =>
      if negb (String.eqb lev_dim (dim ds)) then Err KeyError
      else
        pu <- key (dim_units ds) ;;
        _ <- key (units temperature) ;;
        su <- key (units surface_pressure) ;;
        pressure_convert <- unit_ratio su pu ;;
        let n := List.length (levels ds) in
        if Nat.eqb (List.length zs) (List.length ps) && Nat.eqb (List.length t) (List.length h) &&
           forallb (fun c => Nat.eqb (List.length c) n) (t ++ h) then
          zip_with (column_heights pressure_convert (levels ds)) (combine zs ps) (combine t h)
        else Err NotModelled
  | _, _, _, _ => Err NotModelled
  end.

(** vertical_interp.py 645-661: the surfaces and their unit. *)
Definition layer_height (cfg : config) (ds : dataset) : res (list (list nan) * option string) :=
  hp <- key (height_setting cfg) ;;
  convert <- (if (hp : bool) then
                ti <- key (coord_type_in cfg) ;;
                if String.eqb ti "pressure" then to <- key (coord_type_out cfg) ;; Ok (String.eqb to "height") else Ok false
              else Ok false) ;;
  if (convert : bool) then
    r <- required_fields cfg ds ;;
    let '(geopotential, surface_pressure, temperature, humidity) := r in
    z <- heights cfg ds geopotential surface_pressure temperature humidity ;; Ok (z, Some "meter"%string)
  else
    name <- key (height_name cfg) ;; v <- lookup name (variables ds) ;;
    match data v with OnLevels columns => Ok (columns, units v) | Surface _ => Err NotModelled end.

(** vertical_interp.py 680-685: each field in turn. *)
Fixpoint interp_fields (cfg : config) (ds : dataset) (surfaces : list (list nan)) (surface_units : option string) (names : list string)
  (out : list (string * list (list nan))) : res (list (string * list (list nan))) :=
  match names with
  | [] => Ok out
  | name :: rest =>
      v <- lookup name (variables ds) ;;
      f <- interp_field cfg ds surfaces surface_units v ;;
      interp_fields cfg ds surfaces surface_units rest (store name f out)
  end.

(** vertical_interp.py 622-687; a file that cannot be opened is [None].  Without fields there is no [coords_interp] at line 694: the
    NameError is caught, and line 703 calls a method that is not there. *)
Definition nothing : dataset := {| dim := ""; dim_units := None; levels := []; variables := []; grid := []; times := []; attributes := [] |}.
Definition program (cfg : config) (opened : option dataset) : res output :=
  let ds := match opened with Some d => d | None => nothing end in
  zu <- layer_height cfg ds ;;
  let '(surfaces, surface_units) := zu in
  let has n := existsb (fun p => String.eqb (fst p) n) (times ds) in
  ts <- (if has "valid_time"%string then
           v <- lookup "valid_time" (times ds) ;;
           if has "time"%string then i <- lookup "time" (times ds) ;; Ok [("valid_time"%string, v); ("init_time"%string, i)] else Ok [("valid_time"%string, v)]
         else Ok []) ;;
  lat <- lookup "lat" (grid ds) ;;
  lon <- lookup "lon" (grid ds) ;;
  names <- key (fields cfg) ;;
  fs <- interp_fields cfg ds surfaces surface_units names [] ;;
  match names with
  | [] => Err AttributeError
  | _ => targets <- key (vertical_levels cfg) ;;
         Ok {| o_times := ts; o_lat := lat; o_lon := lon; o_attributes := attributes ds; o_levels := targets; o_fields := fs |}
  end.
End Levels.
