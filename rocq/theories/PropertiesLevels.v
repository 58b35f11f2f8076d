(** C147, C148: a dataset interpolated to new levels (metcalcpy/vertical_interp.py, the program). *)
From Coq Require Import Reals String List.
From Verif Require Import PyBase VertSpec LevelsModel LevelsSpec LevelsProofs.
Import ListNotations.
Open Scope R_scope.

(** C147: a value between two levels, but not in the top layer, is on the line through both, in each column by itself; the heights are first
    multiplied by the number of their units in one unit of the new levels. *)
Theorem C147_between : forall unit_of ratio gravity virtual cfg ds out hname su heights name names fu columns lu c targets j z f k eta i h0 h1 a b,
  program unit_of ratio gravity virtual cfg (Some ds) = Ok out ->
  FromField cfg hname -> HasColumns ds hname (Some su) heights ->
  fields cfg = Some names -> In name names -> HasColumns ds name fu columns ->
  level_units cfg = Some lu -> Factor unit_of lu su c -> 0 < c ->
  vertical_levels cfg = Some targets -> nth_error targets k = Some eta ->
  nth_error heights j = Some z -> nth_error columns j = Some f ->
  Rising z -> (S (S i) < List.length z)%nat -> At z i h0 -> At z (S i) h1 -> c * h0 < eta < c * h1 -> At f i a -> At f (S i) b ->
  forall v, Written out name j k v <-> v = Some (line_through (c * h0) (c * h1) a b eta).
Proof. exact C147_between_proof. Qed.
Print Assumptions C147_between.

(** The new level of 1500 m between 1000 m and 2000 m. *)
Example C147_between_case : exists out,
  program units_example 29 9 (fun _ t _ => t) config_example (Some dataset_example) = Ok out /\
  FromField config_example "HGT" /\ HasColumns dataset_example "HGT" (Some "m"%string) [[Some 1000; Some 2000; Some 3000]] /\
  HasColumns dataset_example "UGRD" (Some "m/s"%string) [[Some 10; Some 20; Some 30]] /\ Factor units_example "m" "m" 1 /\
  Rising [Some 1000; Some 2000; Some 3000] /\ 1 * 1000 < 1500 < 1 * 2000.
Proof. exact C147_between_case_proof. Qed.

(** C147: levels in the unit of the heights: a field that is linear in height is reproduced. *)
Theorem C147_linear : forall unit_of ratio gravity virtual cfg ds out hname u d x heights name names fu columns targets j z f k eta i h0 h1 alpha beta,
  program unit_of ratio gravity virtual cfg (Some ds) = Ok out ->
  FromField cfg hname -> HasColumns ds hname (Some u) heights ->
  fields cfg = Some names -> In name names -> HasColumns ds name fu columns ->
  level_units cfg = Some u -> unit_of u = Some (d, x) -> 0 < x ->
  vertical_levels cfg = Some targets -> nth_error targets k = Some eta ->
  nth_error heights j = Some z -> nth_error columns j = Some f ->
  Rising z -> (S (S i) < List.length z)%nat -> At z i h0 -> At z (S i) h1 -> h0 < eta < h1 ->
  (forall m h, At z m h -> At f m (alpha + beta * h)) ->
  Written out name j k (Some (alpha + beta * eta)).
Proof. exact C147_linear_proof. Qed.
Print Assumptions C147_linear.

Example C147_linear_case : forall m h, At [Some 1000; Some 2000; Some 3000] m h -> At [Some 10; Some 20; Some 30] m (0 + 1 / 100 * h).
Proof. exact C147_linear_case_proof. Qed.

(** C147: but levels in another unit are not the same levels: 1.5 km is not 1500 m, but a level below all heights. *)
Theorem C147_units_refuted : exists cfg ds out out' v v',
  UnitIs units_example "km" "m" 1000 /\
  program units_example 29 9 (fun _ t _ => t) (with_levels [1500] "m" cfg) (Some ds) = Ok out /\
  program units_example 29 9 (fun _ t _ => t) (with_levels [3 / 2] "km" cfg) (Some ds) = Ok out' /\
  Written out "UGRD" 0 0 (Some v) /\ Written out' "UGRD" 0 0 (Some v') /\ v = 15 /\ v' = 10.
Proof. exact C147_units_refuted_proof. Qed.
Print Assumptions C147_units_refuted.

(** C147: units of different quantities give no output. *)
Theorem C147_mismatch : forall unit_of ratio gravity virtual cfg ds out hname su heights lu d x d' x',
  FromField cfg hname -> HasColumns ds hname (Some su) heights -> level_units cfg = Some lu ->
  unit_of lu = Some (d, x) -> unit_of su = Some (d', x') -> d <> d' ->
  program unit_of ratio gravity virtual cfg (Some ds) <> Ok out.
Proof. exact C147_mismatch_proof. Qed.
Print Assumptions C147_mismatch.

Example C147_mismatch_case : units_example "hPa" = Some ("pressure"%string, 100) /\ units_example "m" = Some ("length"%string, 1) /\ "pressure"%string <> "length"%string.
Proof. exact C147_mismatch_case_proof. Qed.

(** C147: a column of the output depends on that column of the heights and of the field alone. *)
Theorem C147_alone : forall unit_of ratio gravity virtual cfg ds ds' out out' hname su heights heights' name names fu fu' columns columns' lu c targets j z f,
  program unit_of ratio gravity virtual cfg (Some ds) = Ok out -> program unit_of ratio gravity virtual cfg (Some ds') = Ok out' ->
  FromField cfg hname -> HasColumns ds hname (Some su) heights -> HasColumns ds' hname (Some su) heights' ->
  fields cfg = Some names -> In name names -> HasColumns ds name fu columns -> HasColumns ds' name fu' columns' ->
  level_units cfg = Some lu -> Factor unit_of lu su c -> vertical_levels cfg = Some targets ->
  nth_error heights j = Some z -> nth_error heights' j = Some z -> nth_error columns j = Some f -> nth_error columns' j = Some f ->
  forall k v, Written out name j k v <-> Written out' name j k v.
Proof. exact C147_alone_proof. Qed.
Print Assumptions C147_alone.

(** C147: the output has each field asked for once, with a value for each column and each new level, and the coordinates and attributes of
    the input. *)
Theorem C147_shape : forall unit_of ratio gravity virtual cfg ds out hname su heights names targets,
  program unit_of ratio gravity virtual cfg (Some ds) = Ok out ->
  FromField cfg hname -> HasColumns ds hname su heights -> fields cfg = Some names -> vertical_levels cfg = Some targets ->
  NoDup (map fst (o_fields out)) /\ (forall n, In n (map fst (o_fields out)) <-> In n names) /\
  (forall n columns, In (n, columns) (o_fields out) ->
     List.length columns = List.length heights /\ Forall (fun column => List.length column = List.length targets) columns) /\
  o_levels out = targets /\ o_attributes out = attributes ds /\ In ("lat"%string, o_lat out) (grid ds) /\ In ("lon"%string, o_lon out) (grid ds).
Proof. exact C147_shape_proof. Qed.
Print Assumptions C147_shape.

(** C147: the valid time is passed on; the initial one only together with it. *)
Theorem C147_times : forall unit_of ratio gravity virtual cfg ds out,
  program unit_of ratio gravity virtual cfg (Some ds) = Ok out -> NoDup (map fst (times ds)) ->
  forall n v, In (n, v) (o_times out) <->
    (n = "valid_time"%string /\ In ("valid_time"%string, v) (times ds)) \/
    (n = "init_time"%string /\ In ("time"%string, v) (times ds) /\ In "valid_time"%string (map fst (times ds))).
Proof. exact C147_times_proof. Qed.
Print Assumptions C147_times.

Example C147_times_case : NoDup (map fst (times dataset_example)) /\ In ("time"%string, 0) (times dataset_example).
Proof. exact C147_times_case_proof. Qed.

(** C147: any type of the output but "height" turns off the heights from pressures silently: the new levels are compared with the field of
    heights, also if they are pressures. *)
Theorem C147_settings : forall unit_of ratio gravity virtual cfg opened b i t,
  height_setting cfg = Some b -> coord_type_in cfg = Some i -> t <> "height"%string \/ i <> "pressure"%string ->
  program unit_of ratio gravity virtual (with_type_out t cfg) opened = program unit_of ratio gravity virtual (with_height_setting false (with_type_out t cfg)) opened.
Proof. exact C147_settings_proof. Qed.
Print Assumptions C147_settings.

Example C147_settings_case : height_setting config_example = Some false /\ coord_type_in config_example = Some "pressure"%string /\ "pressure"%string <> "height"%string.
Proof. exact C147_settings_case_proof. Qed.

(** C147: a file that cannot be opened ends in a KeyError. *)
Theorem C147_unopened : forall unit_of ratio gravity virtual cfg, program unit_of ratio gravity virtual cfg None = Err KeyError.
Proof. exact C147_unopened_proof. Qed.
Print Assumptions C147_unopened.

(** C147: a list of no fields is not an empty output but an error. *)
Theorem C147_no_fields : forall unit_of ratio gravity virtual cfg ds hname su heights,
  FromField cfg hname -> HasColumns ds hname su heights -> In "lat"%string (map fst (grid ds)) -> In "lon"%string (map fst (grid ds)) ->
  fields cfg = Some [] -> program unit_of ratio gravity virtual cfg (Some ds) = Err AttributeError.
Proof. exact C147_no_fields_proof. Qed.
Print Assumptions C147_no_fields.

Example C147_no_fields_case : In "lat"%string (map fst (grid dataset_example)) /\ In "lon"%string (map fst (grid dataset_example)).
Proof. exact C147_no_fields_case_proof. Qed.

(** C148: new heights on pressure levels: a value between two levels, but not in the top layer, is on the line through both, where the
    levels have the heights that follow from the pressure and the geopotential of the ground and the virtual temperatures. *)
Theorem C148_between : forall unit_of ratio gravity virtual cfg ds out pn psu pressures ps tn tu temps tcol hn hu hums hcol pu c geopotential layers p t rest
    name names fu columns lu m targets j f k eta i a b,
  program unit_of ratio gravity virtual cfg (Some ds) = Ok out -> 0 < ratio -> FromPressure cfg ->
  pressure_name cfg = Some pn -> HasSurface ds pn (Some psu) pressures -> nth_error pressures j = Some (Some ps) ->
  Ground cfg ds j geopotential ->
  temperature_name cfg = Some tn -> HasColumns ds tn tu temps -> nth_error temps j = Some tcol ->
  humidity_name cfg = Some hn -> HasColumns ds hn hu hums -> nth_error hums j = Some hcol ->
  dim_units ds = Some pu -> UnitIs unit_of psu pu c ->
  Layers virtual (levels ds) tcol hcol layers -> Atmosphere layers -> layers = (p, t) :: rest -> p < c * ps ->
  fields cfg = Some names -> In name names -> HasColumns ds name fu columns -> nth_error columns j = Some f ->
  level_units cfg = Some lu -> Factor unit_of lu "meter" m -> 0 < m ->
  vertical_levels cfg = Some targets -> nth_error targets k = Some eta ->
  let z := height_of ratio gravity geopotential (c * ps) layers in
  (S (S i) < List.length layers)%nat -> m * z i < eta < m * z (S i) -> At f i a -> At f (S i) b ->
  forall v, Written out name j k v <-> v = Some (line_through (m * z i) (m * z (S i)) a b eta).
Proof. exact C148_between_proof. Qed.
Print Assumptions C148_between.

Example C148_between_case : exists out,
  program units_example 29 9 (fun _ t _ => t) (with_height_setting true config_example) (Some dataset_example) = Ok out /\
  FromPressure (with_height_setting true config_example) /\ HasSurface dataset_example "PSFC" (Some "Pa"%string) [Some 101000] /\
  Ground (with_height_setting true config_example) dataset_example 0 0 /\ UnitIs units_example "Pa" "hPa" (1 / 100) /\
  Layers (fun _ t _ => t) (levels dataset_example) [Some 280; Some 270; Some 260] [Some 50; Some 50; Some 50] [(1000, 280); (850, 270); (700, 260)] /\
  Atmosphere [(1000, 280); (850, 270); (700, 260)] /\ 1000 < 1 / 100 * 101000.
Proof. exact C148_between_case_proof. Qed.

(** C148: in a column whose surface pressure is missing, that of a level, or less than all of them, every value is missing. *)
Theorem C148_lost : forall unit_of ratio gravity virtual cfg ds out pn psu pressures g tn tu temps tcol hn hu hums hcol pu c geopotential layers
    name names fu columns lu m targets j f k eta,
  program unit_of ratio gravity virtual cfg (Some ds) = Ok out -> FromPressure cfg ->
  pressure_name cfg = Some pn -> HasSurface ds pn (Some psu) pressures -> nth_error pressures j = Some g ->
  Ground cfg ds j geopotential ->
  temperature_name cfg = Some tn -> HasColumns ds tn tu temps -> nth_error temps j = Some tcol ->
  humidity_name cfg = Some hn -> HasColumns ds hn hu hums -> nth_error hums j = Some hcol ->
  dim_units ds = Some pu -> UnitIs unit_of psu pu c ->
  Layers virtual (levels ds) tcol hcol layers -> Atmosphere layers -> layers <> [] ->
  g = None \/ (exists ps, g = Some ps /\ ((exists t, In (c * ps, t) layers) \/ (forall p t, In (p, t) layers -> c * ps <= p))) ->
  fields cfg = Some names -> In name names -> HasColumns ds name fu columns -> nth_error columns j = Some f ->
  level_units cfg = Some lu -> Factor unit_of lu "meter" m -> 0 < m ->
  vertical_levels cfg = Some targets -> nth_error targets k = Some eta ->
  forall v, Written out name j k v <-> v = None.
Proof. exact C148_lost_proof. Qed.
Print Assumptions C148_lost.

Example C148_lost_case : In (1 / 100 * 85000, 270) [(1000, 280); (850, 270); (700, 260)].
Proof. exact C148_lost_case_proof. Qed.
