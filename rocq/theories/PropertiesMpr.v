(** C123 to C126: the files of the weather regimes, and the choice of their number. *)
From Coq Require Import Reals Qreals.
From Verif Require Import PyBase EventSpec DriveSpec MprModel MprSpec MprProofs.
From Coq Require Import Ascii List.
Open Scope string_scope.

(** C123: each day with a forecast gets its file, named by lead and valid time, and no other file changes; the file of the last such
    day with that name holds a header and one line for each point, whose words are the values of the columns of a matched pair line. *)
Theorem C123_files : forall fixed4 data_obs data_fcst lats lons time_obs time_fcst t outfile w ny nd,
  DataShaped ny nd (length lons) data_obs -> DataShaped ny nd (length lons) data_fcst -> length lats = length lons ->
  TimesShaped ny nd time_obs -> TimesShaped ny nd time_fcst ->
  exists w', write_mpr_file fixed4 data_obs data_fcst lats lons time_obs time_fcst t outfile w = (w', Ok tt) /\
    (forall p, (forall y d, ~ FileOf outfile time_fcst y d p) -> w' p = w p) /\
    (forall y d name, FileOf outfile time_fcst y d name -> (forall y' d', Before y d y' d' -> ~ FileOf outfile time_fcst y' d' name) ->
     exists header lines, w' name = Some (Text (header :: lines)) /\ length lines = length lons /\
       (forall a b c e f g h i j k, words header = map fst (firstn 24 (mpr_columns fixed4 t a b c e f g h i j k))) /\
       (forall k line lead_f valid_f lead_o valid_o lat lon f o pf po,
          nth_error lines k = Some line -> WordTexts t -> (forall x, Word (fixed4 x)) ->
          Entry (leads time_fcst) y d lead_f -> Entry (valids time_fcst) y d valid_f ->
          Entry (leads time_obs) y d lead_o -> Entry (valids time_obs) y d valid_o -> Forall Word [lead_f; valid_f; lead_o; valid_o] ->
          nth_error lats k = Some lat -> nth_error lons k = Some lon ->
          Entry data_fcst y d pf -> nth_error pf k = Some f -> Entry data_obs y d po -> nth_error po k = Some o ->
          exists total index, NumberText (length lons) total /\ NumberText (S k) index /\
            words line = map snd (mpr_columns fixed4 t lead_f valid_f lead_o valid_o total index lat lon f o))).
Proof. exact C123_files_proof. Qed.
Print Assumptions C123_files.
Example C123_files_case : exists ny nd, DataShaped ny nd (length case_lons) case_obs /\ DataShaped ny nd (length case_lons) case_fcst /\
  length case_lats = length case_lons /\ TimesShaped ny nd case_times_obs /\ TimesShaped ny nd case_times_fcst /\ WordTexts case_texts /\
  (forall x, Word (case_fixed4 x)) /\ FileOf "out" case_times_fcst 0 0 "out_240000L_20001201_120000V.stat" /\
  (forall y' d', Before 0 0 y' d' -> ~ FileOf "out" case_times_fcst y' d' "out_240000L_20001201_120000V.stat").
Proof. exact C123_files_case_proof. Qed.

(** C123: a day whose observation is missing has no observation times; its lines lose those columns, all later values move to the left. *)
Theorem C123_shift_refuted : ~ (forall fixed4 data_obs data_fcst lats lons time_obs time_fcst t outfile w w' ny nd y d name header lines line,
  DataShaped ny nd (length lons) data_obs -> DataShaped ny nd (length lons) data_fcst -> length lats = length lons ->
  TimesShaped ny nd time_obs -> TimesShaped ny nd time_fcst -> WordTexts t -> (forall x, Word (fixed4 x)) ->
  write_mpr_file fixed4 data_obs data_fcst lats lons time_obs time_fcst t outfile w = (w', Ok tt) ->
  FileOf outfile time_fcst y d name -> w' name = Some (Text (header :: lines)) -> In line lines ->
  length (words line) = 37%nat /\ nth_error (words line) 23 = Some "MPR").
Proof. exact C123_shift_refuted_proof. Qed.
Print Assumptions C123_shift_refuted.

(** C123: with fewer latitudes than longitudes the first file stops short, and none of the others is written. *)
Theorem C123_short : forall fixed4 data_obs data_fcst lats lons time_obs time_fcst t outfile w ny nd y d name,
  DataShaped ny nd (length lons) data_obs -> DataShaped ny nd (length lons) data_fcst -> (length lats < length lons)%nat ->
  TimesShaped ny nd time_obs -> TimesShaped ny nd time_fcst ->
  FileOf outfile time_fcst y d name -> (forall y' d' other, Before y' d' y d -> ~ FileOf outfile time_fcst y' d' other) ->
  exists w' header lines, write_mpr_file fixed4 data_obs data_fcst lats lons time_obs time_fcst t outfile w = (w', Err IndexError) /\
    w' name = Some (Text (header :: lines)) /\ length lines = length lats /\ Untouched name w w'.
Proof. exact C123_short_proof. Qed.
Print Assumptions C123_short.
Example C123_short_case : exists ny nd, DataShaped ny nd (length case_lons) case_obs /\ DataShaped ny nd (length case_lons) case_fcst /\
  (length (tl case_lats) < length case_lons)%nat /\ TimesShaped ny nd case_times_obs /\ TimesShaped ny nd case_times_fcst /\
  FileOf "out" case_times_fcst 0 0 "out_240000L_20001201_120000V.stat" /\
  (forall y' d' other, Before y' d' 0 0 -> ~ FileOf "out" case_times_fcst y' d' other).
Proof. exact C123_short_case_proof. Qed.

(** C124: the files in their order, by season and day: the numbers of the grid, the times of the file, and the lead as hours, minutes
    and seconds; a missing file gives a grid of missing values and empty times. *)
Theorem C124_read : forall open_nc seconds infiles nseasons dseasons n m,
  (0 < n)%nat -> (0 < m)%nat -> (exists file, In file infiles /\ file <> "missing") ->
  (forall file, In file infiles -> file <> "missing" -> GoodFile open_nc seconds n m file) -> length infiles = (nseasons * dseasons)%nat ->
  exists grids lats lons init valid lead,
    read_nc_met open_nc seconds infiles nseasons dseasons = Ok (grids, lats, lons, (init, valid, lead)) /\
    Shaped nseasons dseasons grids /\ Shaped nseasons dseasons init /\ Shaped nseasons dseasons valid /\ Shaped nseasons dseasons lead /\
    (exists k file v, nth_error infiles k = Some file /\ file <> "missing" /\ (forall j, (j < k)%nat -> nth_error infiles j = Some "missing") /\
       open_nc file = Ok v /\ lats = nc_lats v /\ lons = nc_lons v) /\
    (forall y d file, (y < nseasons)%nat -> (d < dseasons)%nat -> nth_error infiles (y * dseasons + d) = Some file ->
     exists g i t l, Entry grids y d g /\ Entry init y d i /\ Entry valid y d t /\ Entry lead y d l /\ Shaped n m g /\
       (file = "missing" -> i = "" /\ t = "" /\ l = "" /\ forall a b x, Entry g a b x -> x = None) /\
       (file <> "missing" -> forall v tv ti, open_nc file = Ok v -> seconds (nc_valid v) = Ok tv -> seconds (nc_init v) = Ok ti ->
          i = nc_init v /\ t = nc_valid v /\ ((ti <= tv)%Z -> LeadText (tv - ti) l) /\
          forall a b q masked, Entry (nc_grid v) a b (q, masked) -> Entry g a b (Some q))).
Proof. exact C124_read_proof. Qed.
Print Assumptions C124_read.
Example C124_read_case : (exists file, In file ["missing"; "a.nc"] /\ file <> "missing") /\
  (forall file, In file ["missing"; "a.nc"] -> file <> "missing" -> GoodFile case_open case_seconds 2 2 file) /\
  length ["missing"; "a.nc"] = (1 * 2)%nat.
Proof. exact C124_read_case_proof. Qed.

(** C124: a lead of half an hour before the initial time is minus one hour and thirty minutes. *)
Theorem C124_negative_refuted : ~ (forall open_nc seconds infiles grids lats lons init valid lead file v tv ti l,
  read_nc_met open_nc seconds infiles 1 1 = Ok (grids, lats, lons, (init, valid, lead)) -> infiles = [file] -> file <> "missing" ->
  open_nc file = Ok v -> seconds (nc_valid v) = Ok tv -> seconds (nc_init v) = Ok ti -> (tv < ti)%Z -> Entry lead 0 0 l ->
  exists r, l = "-" ++ r /\ LeadText (ti - tv) r).
Proof. exact C124_negative_refuted_proof. Qed.
Print Assumptions C124_negative_refuted.

(** C124: a missing value of a grid, masked by netCDF4, becomes the number that marks it in the file. *)
Theorem C124_masked_refuted : ~ (forall open_nc seconds infiles grids lats lons init valid lead file v g a b q x,
  read_nc_met open_nc seconds infiles 1 1 = Ok (grids, lats, lons, (init, valid, lead)) -> infiles = [file] ->
  open_nc file = Ok v -> Entry (nc_grid v) a b (q, true) -> Entry grids 0 0 g -> Entry g a b x -> x = None).
Proof. exact C124_masked_refuted_proof. Qed.
Print Assumptions C124_masked_refuted.

(** C124: no file at all is refused; so is a number of files that is not that of the days, and a grid of another shape. *)
Theorem C124_refused : forall open_nc seconds infiles nseasons dseasons n m,
  ((forall file, In file infiles -> file = "missing") -> read_nc_met open_nc seconds infiles nseasons dseasons = Err RuntimeError) /\
  ((0 < n)%nat -> (0 < m)%nat -> (exists file, In file infiles /\ file <> "missing") ->
   (forall file, In file infiles -> file <> "missing" -> GoodFile open_nc seconds n m file) ->
   length infiles <> (nseasons * dseasons)%nat -> read_nc_met open_nc seconds infiles nseasons dseasons = Err ValueError) /\
  (forall before file after n' m', infiles = (before ++ file :: after)%list -> file <> "missing" -> (0 < n)%nat -> (0 < m)%nat ->
   (exists other, In other before /\ other <> "missing") ->
   (forall other, In other before -> other <> "missing" -> GoodFile open_nc seconds n m other) ->
   GoodFile open_nc seconds n' m' file -> (1 < n')%nat -> (1 < m')%nat -> (n', m') <> (n, m) ->
   read_nc_met open_nc seconds infiles nseasons dseasons = Err ValueError).
Proof. exact C124_refused_proof. Qed.
Print Assumptions C124_refused.
Example C124_refused_case : (forall file, In file ["missing"; "missing"] -> file = "missing") /\
  (exists file, In file ["missing"; "a.nc"; "a.nc"] /\ file <> "missing") /\
  (forall file, In file ["missing"; "a.nc"; "a.nc"] -> file <> "missing" -> GoodFile case_open case_seconds 2 2 file) /\
  length ["missing"; "a.nc"; "a.nc"] <> (1 * 2)%nat /\ GoodFile case_open case_seconds 2 3 "b.nc".
Proof. exact C124_refused_case_proof. Qed.

(** C125: for at least two numbers of clusters, the best ones are the places where the curve lies deepest below the straight line from
    its first to its last value; there is one at least.  The numbers, the line and the curve are those of the plot. *)
Theorem C125_elbow : forall s, (2 <= length s)%nat ->
  exists d mi line curve, run_elbow s = Ok (seq 1 (length s), d, mi, line, curve) /\
    mi <> [] /\ (forall i, In i mi <-> exists x, Depth s i x /\ forall j y, Depth s j y -> y <= x) /\
    (forall i j a b, nth_error mi i = Some a -> nth_error mi j = Some b -> (i < j)%nat -> (a < b)%nat) /\
    length d = length s /\ length line = length s /\ length curve = length s /\
    (forall i v c, nth_error s i = Some v -> nth_error curve i = Some c -> c == v / 10000000000) /\
    (forall i x c l, Depth s i x -> nth_error curve i = Some c -> nth_error line i = Some l -> l - c == x / 10000000000) /\
    (forall i di c l, nth_error d i = Some di -> nth_error curve i = Some c -> nth_error line i = Some l ->
       forall a b, nth_error curve 0 = Some a -> nth_error curve (length s - 1) = Some b ->
       let n := Q2R (inject_Z (Z.of_nat (length s - 1))) in
       di = Some ((Q2R c - Q2R l) * n / sqrt (n * n + (Q2R b - Q2R a) * (Q2R b - Q2R a)))%R).
Proof. exact C125_elbow_proof. Qed.
Print Assumptions C125_elbow.
Example C125_elbow_case : (2 <= length [100; 40; 30; 25])%nat /\ Depth [100; 40; 30; 25] 1 35 /\
  (forall j y, Depth [100; 40; 30; 25] j y -> y <= 35).
Proof. exact C125_elbow_case_proof. Qed.

(** C125: if the curve lies below the line anywhere, neither the first nor the last number is best; the same numbers are best whatever
    the unit of the sums. *)
Theorem C125_inside : forall s d mi line curve K, (2 <= length s)%nat -> run_elbow s = Ok (K, d, mi, line, curve) ->
  ((exists i x, Depth s i x /\ 0 < x) -> forall i, In i mi -> (0 < i < length s - 1)%nat) /\
  (forall c d' mi' line' curve' K', 0 < c -> run_elbow (map (fun v => v * c) s) = Ok (K', d', mi', line', curve') -> mi' = mi).
Proof. exact C125_inside_proof. Qed.
Print Assumptions C125_inside.
Example C125_inside_case : (2 <= length [100; 40; 30; 25])%nat /\ (exists i x, Depth [100; 40; 30; 25] i x /\ 0 < x) /\
  exists r, run_elbow [100; 40; 30; 25] = Ok r.
Proof. exact C125_inside_case_proof. Qed.

(** C125: one number of clusters only: no best one is found, no error is raised, and the line through one point is kept; no number at
    all is an error. *)
Theorem C125_one_refuted : forall v,
  (exists d line curve, run_elbow [v] = Ok ([1%nat], d, [], line, curve) /\ d = [None]) /\ run_elbow [] = Err IndexError.
Proof. exact C125_one_refuted_proof. Qed.
Print Assumptions C125_one_refuted.

(** C126: the text file holds, after its heading, one line for each day in the order of the seasons, with year, month, day and regime;
    no other file changes. *)
Theorem C126_text : forall show day_number path valid wrc w, length (List.concat valid) = length (List.concat wrc) ->
  exists w' heading lines, write_K_means_file show day_number "text" path valid wrc w = (w', Ok tt) /\
    w' (path ++ ".txt") = Some (Text (heading :: lines)) /\ Untouched (path ++ ".txt") w w' /\
    words heading = ["#"; "Year"; "Month"; "Day"; "WeatherRegime"] /\ length lines = length (List.concat wrc) /\
    (forall k vt year month day q line, nth_error (List.concat valid) k = Some vt -> ValidTime vt year month day ->
       nth_error (List.concat wrc) k = Some q -> Word (show q) -> nth_error lines k = Some line ->
       words line = [year; month; day; show q]).
Proof. exact C126_text_proof. Qed.
Print Assumptions C126_text.
Example C126_text_case : length (List.concat [["20001201_000000"; "20001202_000000"]]) = length (List.concat [[1; 3]]) /\
  ValidTime "20001202_000000" "2000" "12" "02" /\ Word "3.0".
Proof. exact C126_text_case_proof. Qed.

(** C126: a day without a valid time has a line with its regime alone, where the year of the other lines stands. *)
Theorem C126_blank_refuted : forall show day_number path valid wrc w w' heading lines k q line,
  length (List.concat valid) = length (List.concat wrc) ->
  write_K_means_file show day_number "text" path valid wrc w = (w', Ok tt) -> w' (path ++ ".txt") = Some (Text (heading :: lines)) ->
  nth_error (List.concat valid) k = Some "" -> nth_error (List.concat wrc) k = Some q -> Word (show q) -> nth_error lines k = Some line ->
  words line = [show q].
Proof. exact C126_blank_refuted_proof. Qed.
Print Assumptions C126_blank_refuted.
Example C126_blank_refuted_case : length (List.concat [["20001201_000000"; ""]]) = length (List.concat [[1; 3]]) /\
  nth_error (List.concat [["20001201_000000"; ""]]) 1 = Some "" /\ Word "3.0" /\
  exists w' heading lines, write_K_means_file (fun _ => "3.0") (fun _ _ _ => Err ValueError) "text" "wr" [["20001201_000000"; ""]] [[1; 3]] (fun _ => None) = (w', Ok tt) /\
    w' "wr.txt" = Some (Text (heading :: lines)).
Proof. exact C126_blank_refuted_case_proof. Qed.

(** C126: the netCDF file holds for each day the days since the first one, the date, and the regime. *)
Theorem C126_netcdf : forall show day_number path valid wrc w (number : string -> Z), List.concat valid <> [] ->
  length (List.concat valid) = length (List.concat wrc) ->
  (forall vt, In vt (List.concat valid) -> exists year month day, ValidTime vt year month day /\ day_number year month day = Ok (number vt)) ->
  exists w' records, write_K_means_file show day_number "netcdf" path valid wrc w = (w', Ok tt) /\
    w' (path ++ ".nc") = Some (NetCdf records) /\ Untouched (path ++ ".nc") w w' /\ length records = length (List.concat wrc) /\
    (forall k first vt year month day q, nth_error (List.concat valid) 0 = Some first -> nth_error (List.concat valid) k = Some vt ->
       ValidTime vt year month day -> nth_error (List.concat wrc) k = Some q ->
       nth_error records k = Some ((number vt - number first)%Z, year ++ month ++ day, q)).
Proof. exact C126_netcdf_proof. Qed.
Print Assumptions C126_netcdf.
Example C126_netcdf_case : List.concat [["20001201_000000"; "20001202_000000"]] <> [] /\
  length (List.concat [["20001201_000000"; "20001202_000000"]]) = length (List.concat [[1; 3]]) /\
  (forall vt, In vt (List.concat [["20001201_000000"; "20001202_000000"]]) -> exists year month day, ValidTime vt year month day /\
     (fun _ _ d => if String.eqb d "01" then Ok 1%Z else Ok 2%Z) year month day = Ok (if String.eqb vt "20001201_000000" then 1 else 2)%Z).
Proof. exact C126_netcdf_case_proof. Qed.

(** C126: one day without a valid time: the old netCDF file is removed and no new one is written.  A type of file that is neither text
    nor netcdf writes nothing, without an error. *)
Theorem C126_lost_refuted : forall show day_number path valid wrc w, length (List.concat valid) = length (List.concat wrc) ->
  ((forall vt, In vt (List.concat valid) -> vt = "" \/ exists year month day n, ValidTime vt year month day /\ day_number year month day = Ok n) ->
   In "" (List.concat valid) -> day_number "" "" "" = Err ValueError ->
   exists w', write_K_means_file show day_number "netcdf" path valid wrc w = (w', Err ValueError) /\ w' (path ++ ".nc") = None /\
     Untouched (path ++ ".nc") w w') /\
  (forall other, other <> "netcdf" -> other <> "text" -> write_K_means_file show day_number other path valid wrc w = (w, Ok tt)).
Proof. exact C126_lost_refuted_proof. Qed.
Print Assumptions C126_lost_refuted.
Example C126_lost_refuted_case : length (List.concat [["20001201_000000"; ""]]) = length (List.concat [[1; 3]]) /\
  In "" (List.concat [["20001201_000000"; ""]]) /\ ValidTime "20001201_000000" "2000" "12" "01" /\ "csv" <> "netcdf" /\ "csv" <> "text".
Proof. exact C126_lost_refuted_case_proof. Qed.
