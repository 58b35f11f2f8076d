(** C130 to C133: writing an interpolated dataset. *)
From Verif Require Import PyBase WriteModel WriteSpec WriteProofs.
From Coq Require Import Qabs String Ascii List.
Import ListNotations.
Open Scope string_scope.
Open Scope Z_scope.

(** C130: the file has the dimensions of the dataset, one variable for each dimension and each field and no other, the attributes of the
    dataset, the coordinates, and each field of floats or long integers with its type, dimensions, values and attributes. *)
Theorem C130_fields : forall time_text offset ds, GoodSet ds ->
  exists F, write_dataset time_text offset ds None false = Ok F /\
    ncdims F = map (fun d => (fst d, SizeOf (snd d))) (dims ds) /\
    map vname (ncvars F) = (map fst (dims ds) ++ map fname (fields ds))%list /\ ncattrs F = dattrs ds /\
    (forall name t v, In (name, Numbers t v) (dims ds) ->
       In {| vname := name; vtype := t; vdims := [name]; vvalues := v; vattrs := [] |} (ncvars F)) /\
    (forall x, In x (fields ds) -> KeptType (ftype x) ->
       In {| vname := fname x; vtype := ftype x; vdims := fdims x; vvalues := fvalues x; vattrs := fattrs x |} (ncvars F)).
Proof. exact C130_fields_proof. Qed.
Print Assumptions C130_fields.
Example C130_fields_case : GoodSet example_set.
Proof. exact C130_fields_case_proof. Qed.

(** C130: small integers, truth values and times are stored as unsigned numbers of 64 bits: numbers below zero come out wrong. *)
Theorem C130_small : forall time_text offset ds x, GoodSet ds -> In x (fields ds) -> SmallType (ftype x) ->
  exists F values, write_dataset time_text offset ds None false = Ok F /\
    In {| vname := fname x; vtype := UInt64; vdims := fdims x; vvalues := values; vattrs := fattrs x |} (ncvars F) /\
    Forall2 (fun v v' => exists z k, v = Some (inject_Z z) /\ v' = Some (inject_Z (z + k * 2 ^ 64)) /\ 0 <= z + k * 2 ^ 64 < 2 ^ 64) (fvalues x) values.
Proof. exact C130_small_proof. Qed.
Print Assumptions C130_small.
Example C130_small_case : In small_field (fields example_set) /\ SmallType (ftype small_field) /\ In (Some (-1)%Q) (fvalues small_field).
Proof. exact C130_small_case_proof. Qed.
Theorem C130_small_refuted : ~ (forall time_text offset ds F x, GoodSet ds -> write_dataset time_text offset ds None false = Ok F -> In x (fields ds) ->
  exists v, In v (ncvars F) /\ vname v = fname x /\ vvalues v = fvalues x).
Proof. exact C130_small_refuted_proof. Qed.
Print Assumptions C130_small_refuted.

(** C130: with a reference time, a dataset with a field named as the variable for it is refused. *)
Theorem C130_refused : forall time_text offset ds, GoodSet ds -> In "forecast_reference_time" (map fname (fields ds)) ->
  forall ref, write_dataset time_text offset ds (Some ref) false = Err RuntimeError.
Proof. exact C130_refused_proof. Qed.
Print Assumptions C130_refused.
Example C130_refused_case :
  let ds := {| dims := []; fields := [{| fname := "forecast_reference_time"; ftype := Float64; fdims := []; fvalues := [Some 1%Q]; fattrs := [] |}]; dattrs := [] |} in
  GoodSet ds /\ In "forecast_reference_time" (map fname (fields ds)).
Proof. exact C130_refused_case_proof. Qed.

(** C131: the coordinates of time are the seconds since the first one, within a microsecond, and exact if all times are whole
    microseconds. *)
Theorem C131_times : forall time_text offset ds t0 ts, GoodSet ds -> In ("time", Times (t0 :: ts)) (dims ds) ->
  exists F values, write_dataset time_text offset ds None false = Ok F /\
    In {| vname := "time"; vtype := Float64; vdims := ["time"]; vvalues := values; vattrs := [] |} (ncvars F) /\
    Forall2 (fun t v => exists s, v = Some s /\ (Qabs (s - inject_Z (t - t0) / 1000000000) <= 1 / 1000000)%Q /\
                                  ((1000 | t) -> (1000 | t0) -> (s == inject_Z (t - t0) / 1000000000)%Q)) (t0 :: ts) values.
Proof. exact C131_times_proof. Qed.
Print Assumptions C131_times.
Example C131_times_case : GoodSet example_set /\ In ("time", Times [1000; 3600000000500]) (dims example_set).
Proof. exact C131_times_case_proof. Qed.

(** C131: the file does not tell when: the same dataset any number of seconds later gives the same file. *)
Theorem C131_shift : forall time_text offset ds sec, GoodSet ds ->
  write_dataset time_text offset (Later (sec * 1000000000) ds) None false = write_dataset time_text offset ds None false.
Proof. exact C131_shift_proof. Qed.
Print Assumptions C131_shift.
Example C131_shift_case : GoodSet example_set /\ dims (Later 1000000000 example_set) <> dims example_set.
Proof. exact C131_shift_case_proof. Qed.
Theorem C131_origin_refuted : ~ (forall time_text offset ds ds' F, GoodSet ds -> GoodSet ds' ->
  write_dataset time_text offset ds None false = Ok F -> write_dataset time_text offset ds' None false = Ok F -> dims ds = dims ds').
Proof. exact C131_origin_refuted_proof. Qed.
Print Assumptions C131_origin_refuted.

(** C132: with a time dimension the file also has a dimension of length one and a variable for the valid time, the seconds since the
    initial time; each other field gets that dimension before its own, and keeps values and attributes, if the valid time itself has no
    attributes. *)
Theorem C132_valid_time : forall time_text offset ds valid init, GoodSet ds -> ~ In "valid_time" (map fst (dims ds)) ->
  In {| fname := "valid_time"; ftype := Datetime; fdims := []; fvalues := [Some (inject_Z valid)]; fattrs := [] |} (fields ds) ->
  In {| fname := "init_time"; ftype := Datetime; fdims := []; fvalues := [Some (inject_Z init)]; fattrs := [] |} (fields ds) ->
  exists F s, write_dataset time_text offset ds None true = Ok F /\
    ncdims F = (map (fun d => (fst d, SizeOf (snd d))) (dims ds) ++ [("valid_time", 1%nat)])%list /\
    NoDup (map vname (ncvars F)) /\ (forall n, In n (map vname (ncvars F)) <-> In n (map fst (dims ds)) \/ In n (map fname (fields ds))) /\
    (exists v, In v (ncvars F) /\ vname v = "valid_time" /\ vdims v = ["valid_time"] /\ vvalues v = [Some s] /\
       (Qabs (s - inject_Z (valid - init) / 1000000000) <= 1 / 1000000)%Q) /\
    (forall x, In x (fields ds) -> fname x <> "valid_time" -> KeptType (ftype x) ->
       In {| vname := fname x; vtype := ftype x; vdims := "valid_time" :: fdims x; vvalues := fvalues x; vattrs := fattrs x |} (ncvars F)).
Proof. exact C132_valid_time_proof. Qed.
Print Assumptions C132_valid_time.
Example C132_valid_time_case : GoodSet timed_set /\ ~ In "valid_time" (map fst (dims timed_set)) /\
  In {| fname := "valid_time"; ftype := Datetime; fdims := []; fvalues := [Some (inject_Z 7200000000000)]; fattrs := [] |} (fields timed_set) /\
  In {| fname := "init_time"; ftype := Datetime; fdims := []; fvalues := [Some (inject_Z 0)]; fattrs := [] |} (fields timed_set) /\
  exists x, In x (fields timed_set) /\ fname x <> "valid_time" /\ KeptType (ftype x).
Proof. exact C132_valid_time_case_proof. Qed.

(** C132: attributes of the valid time go to the variable written before it; if it is the first field the program ends. *)
Theorem C132_attributes_refuted : ~ (forall time_text offset ds F x, GoodSet ds -> ~ In "valid_time" (map fst (dims ds)) ->
  write_dataset time_text offset ds None true = Ok F -> In x (fields ds) -> fname x <> "valid_time" -> KeptType (ftype x) ->
  exists v, In v (ncvars F) /\ vname v = fname x /\ vattrs v = fattrs x).
Proof. exact C132_attributes_refuted_proof. Qed.
Print Assumptions C132_attributes_refuted.
(** C132: there they replace attributes with the same names. *)
Theorem C132_replaced_refuted : ~ (forall time_text offset ds F x a, GoodSet ds -> ~ In "valid_time" (map fst (dims ds)) ->
  write_dataset time_text offset ds None true = Ok F -> In x (fields ds) -> fname x <> "valid_time" -> KeptType (ftype x) -> In a (fattrs x) ->
  exists v, In v (ncvars F) /\ vname v = fname x /\ In a (vattrs v)).
Proof. exact C132_replaced_refuted_proof. Qed.
Print Assumptions C132_replaced_refuted.
Theorem C132_first : forall time_text offset ds x rest valid init, GoodSet ds -> ~ In "valid_time" (map fst (dims ds)) ->
  fields ds = x :: rest -> fname x = "valid_time" -> fdims x = [] -> fvalues x = [Some (inject_Z valid)] -> fattrs x <> [] ->
  In {| fname := "init_time"; ftype := Datetime; fdims := []; fvalues := [Some (inject_Z init)]; fattrs := [] |} rest ->
  write_dataset time_text offset ds None true = Err UnboundLocalError.
Proof. exact C132_first_proof. Qed.
Print Assumptions C132_first.
Example C132_first_case : let x := {| fname := "valid_time"; ftype := Datetime; fdims := []; fvalues := [Some (inject_Z 5)]; fattrs := [("long_name", "time")] |} in
  let i := {| fname := "init_time"; ftype := Datetime; fdims := []; fvalues := [Some (inject_Z 0)]; fattrs := [] |} in
  GoodSet {| dims := []; fields := [x; i]; dattrs := [] |}.
Proof. exact C132_first_case_proof. Qed.
(** C132: without a valid time or an initial time nothing is written. *)
Theorem C132_missing : forall time_text offset ds ref, GoodSet ds -> ~ In "valid_time" (map fst (dims ds)) ->
  (~ In "valid_time" (map fname (fields ds)) -> write_dataset time_text offset ds ref true = Err KeyError) /\
  (forall valid, In {| fname := "valid_time"; ftype := Datetime; fdims := []; fvalues := [Some (inject_Z valid)]; fattrs := [] |} (fields ds) ->
     ~ In "init_time" (map fname (fields ds)) -> write_dataset time_text offset ds ref true = Err KeyError).
Proof. exact C132_missing_proof. Qed.
Print Assumptions C132_missing.
Example C132_missing_case : GoodSet example_set /\ ~ In "valid_time" (map fst (dims example_set)) /\ ~ In "valid_time" (map fname (fields example_set)).
Proof. exact C132_missing_case_proof. Qed.

(** C133: the reference time is the hour of the text on the clock of the machine, as seconds since 1970 of that clock less its offset. *)
Theorem C133_reference : forall time_text offset ds ref y m d h, GoodSet ds -> Unused "forecast_reference_time" ds -> HourText ref y m d h -> RealHour y m d h ->
  exists F local v, write_dataset time_text offset ds (Some ref) false = Ok F /\ SecondsSince1970 (y, m, d, h) local /\
    In v (ncvars F) /\ vname v = "forecast_reference_time" /\ vvalues v = [Some (inject_Z (local - offset local))] /\
    In ("units", "seconds since 1970-01-01 00:00") (vattrs v) /\
    (forall F', write_dataset time_text offset ds None false = Ok F' -> ncvars F = (ncvars F' ++ [v])%list).
Proof. exact C133_reference_proof. Qed.
Print Assumptions C133_reference.
Example C133_reference_case : Unused "forecast_reference_time" example_set /\ HourText "2024022912.nc" 2024 2 29 12 /\ RealHour 2024 2 29 12.
Proof. exact C133_reference_case_proof. Qed.
(** C133: so the same text means another time on a machine with another clock. *)
Theorem C133_zone_refuted : ~ (forall time_text offset ds ref y m d h F s v, GoodSet ds -> Unused "forecast_reference_time" ds ->
  HourText ref y m d h -> RealHour y m d h -> write_dataset time_text offset ds (Some ref) false = Ok F -> SecondsSince1970 (y, m, d, h) s ->
  In v (ncvars F) -> vname v = "forecast_reference_time" -> vvalues v = [Some (inject_Z s)]).
Proof. exact C133_zone_refuted_proof. Qed.
Print Assumptions C133_zone_refuted.
(** C133: digits that are no date, and a text without an hour, are refused. *)
Theorem C133_refused : forall time_text offset ds ref, GoodSet ds -> Unused "forecast_reference_time" ds ->
  (forall y m d h, HourText ref y m d h -> ~ RealHour y m d h -> write_dataset time_text offset ds (Some ref) false = Err ValueError) /\
  (forall n, DecimalText ref n -> (String.length ref <= 8)%nat -> write_dataset time_text offset ds (Some ref) false = Err ValueError).
Proof. exact C133_refused_proof. Qed.
Print Assumptions C133_refused.
Example C133_refused_case : HourText "2023022900" 2023 2 29 0 /\ ~ RealHour 2023 2 29 0 /\ DecimalText "20240229" 20240229.
Proof. exact C133_refused_case_proof. Qed.
(** C133: the program takes the second part of the whole path between dots: that of the file name only if the directory has no dot;
    and whatever exception writing raises, an attribute error comes out. *)
Theorem C133_program : forall time_text offset datadir output a ref rest c ds,
  (forall s t, ref <> (s ++ "." ++ t)%string) -> OutputPath datadir output (a ++ "." ++ ref ++ "." ++ rest)%string -> (forall s t, a <> (s ++ "." ++ t)%string) ->
  (forall F, write_dataset time_text offset ds (Some ref) c = Ok F -> write_output time_text offset datadir output true c ds = Ok F) /\
  (forall e, e <> NotModelled -> write_dataset time_text offset ds (Some ref) c = Err e -> write_output time_text offset datadir output true c ds = Err AttributeError).
Proof. exact C133_program_proof. Qed.
Print Assumptions C133_program.
Example C133_program_case : OutputPath "/data" "gfs.2024022912.nc" ("/data/gfs" ++ "." ++ "2024022912" ++ "." ++ "nc")%string /\
  (forall s t, "/data/gfs" <> (s ++ "." ++ t)%string) /\ (forall s t, "2024022912" <> (s ++ "." ++ t)%string).
Proof. exact C133_program_case_proof. Qed.
Theorem C133_directory_refuted : ~ (forall time_text offset datadir name ref ds F, GoodSet ds -> (forall s t, ref <> (s ++ "." ++ t)%string) ->
  (forall s t, name <> (s ++ "." ++ t)%string) -> (forall s t, name <> (s ++ "/" ++ t)%string) -> name <> "" -> datadir <> "" ->
  write_dataset time_text offset ds (Some ref) false = Ok F ->
  write_output time_text offset datadir (name ++ "." ++ ref ++ ".nc") true false ds = Ok F).
Proof. exact C133_directory_refuted_proof. Qed.
Print Assumptions C133_directory_refuted.
