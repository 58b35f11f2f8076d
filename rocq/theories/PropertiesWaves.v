(** Means along the axes, waves around circles of latitude and winds of storms. *)
From Coq Require Import Reals Qreals QArith String List.
From Verif Require Import PyBase WavesModel WavesSpec WavesProofs.
Import ListNotations.
Open Scope nat_scope.

(** ** C80: means *)

(** The zonal mean is the mean of the values that are not missing, and missing if there are none. *)
Theorem C80_zonal : forall row : list (option Q),
  let values := flat_map (fun o => match o with Some q => [q] | None => [] end) row in
  match zonal_mean row with
  | Some m => values <> [] /\ (m * inject_Z (Z.of_nat (List.length values)) == fold_right Qplus 0 values)%Q
  | None => values = []
  end.
Proof. exact C80_zonal_proof. Qed.
Print Assumptions C80_zonal.

(** The meridional mean should be that of the latitudes between the given limits; it is not. *)
Theorem C80_band_refuted : ~ forall (dat : list (Q * option R)) (lat1 lat2 : Q) (m : R), (lat1 < lat2)%Q ->
  meridional_mean dat lat1 lat2 = Ok (Some m) -> BandMean lat1 lat2 dat m.
Proof. exact C80_band_refuted_proof. Qed.
Print Assumptions C80_band_refuted.

(** Whatever the limits, it is that of the latitudes from 60 to 90. *)
Theorem C80_meridional : forall (dat : list (Q * option R)) (lat1 lat2 : Q) (m : R),
  meridional_mean dat lat1 lat2 = Ok (Some m) -> BandMean 60 90 dat m.
Proof. exact C80_meridional_proof. Qed.
Print Assumptions C80_meridional.

Example C80_meridional_case : exists m, meridional_mean [(0, Some 5%R); (60, Some 1%R); (75, None); (90, Some 3%R)]%Q (-10) 30 = Ok (Some m).
Proof. exact C80_meridional_case_proof. Qed.

(** So the limits do not change the result, and with the limits 60 and 90 it is the documented one. *)
Theorem C80_limits : forall (dat : list (Q * option R)) (lat1 lat2 lat1' lat2' : Q), (lat1 < lat2)%Q -> (lat1' < lat2')%Q ->
  meridional_mean dat lat1 lat2 = meridional_mean dat lat1' lat2'.
Proof. exact C80_limits_proof. Qed.
Print Assumptions C80_limits.

(** The result is missing exactly if there is no value between 60 and 90, as in the tropics. *)
Theorem C80_missing : forall (dat : list (Q * option R)) (lat1 lat2 : Q), (lat1 < lat2)%Q ->
  (meridional_mean dat lat1 lat2 = Ok None <-> forall lat x, In (lat, Some x) dat -> (lat < 60)%Q \/ (90 < lat)%Q).
Proof. exact C80_missing_proof. Qed.
Print Assumptions C80_missing.

(** It lies between the values of these latitudes. *)
Theorem C80_bounds : forall (dat : list (Q * option R)) (lat1 lat2 : Q) (m a b : R),
  meridional_mean dat lat1 lat2 = Ok (Some m) ->
  (forall lat x, In (lat, Some x) dat -> (60 <= lat <= 90)%Q -> (a <= x <= b)%R) -> (a <= m <= b)%R.
Proof. exact C80_bounds_proof. Qed.
Print Assumptions C80_bounds.

Example C80_bounds_case : exists m, meridional_mean [(60, Some 1%R); (90, Some 3%R)]%Q 60 90 = Ok (Some m) /\ (1 <= m <= 3)%R.
Proof. exact C80_bounds_case_proof. Qed.

(** ValueError exactly if the limits are equal or the wrong way round; no other exception. *)
Theorem C80_exceptions : forall (dat : list (Q * option R)) (lat1 lat2 : Q),
  (meridional_mean dat lat1 lat2 = Err ValueError <-> (lat2 <= lat1)%Q) /\
  (forall e, meridional_mean dat lat1 lat2 = Err e -> e = ValueError).
Proof. exact C80_exceptions_proof. Qed.
Print Assumptions C80_exceptions.

(** ** C81: winds around a storm *)

(** The radial wind is the part of the wind in the direction that has the given angle from north, counter-clockwise; the
    tangential wind is the part a quarter turn further, counter-clockwise around the storm. *)
Theorem C81_components : forall (azimuth : list Q) (u v : list R) (out : list (R * R)),
  wind_components azimuth u v = Ok out ->
  forall i a x y, nth_error azimuth i = Some a -> nth_error u i = Some x -> nth_error v i = Some y ->
    let d := (Q2R a * PI / 180)%R in
    nth_error out i = Some (x * - sin d + y * cos d, x * - cos d + y * - sin d)%R.
Proof. exact C81_components_proof. Qed.
Print Assumptions C81_components.

Example C81_components_case : exists out, wind_components [0; 300]%Q [1; 2]%R [3; 4]%R = Ok out.
Proof. eexists. reflexivity. Qed.

(** The speed stays the same, and the wind can be computed back. *)
Theorem C81_speed : forall (azimuth : list Q) (u v : list R) (out : list (R * R)),
  wind_components azimuth u v = Ok out -> List.length out = List.length azimuth /\
  forall i a x y r t, nth_error azimuth i = Some a -> nth_error u i = Some x -> nth_error v i = Some y ->
    nth_error out i = Some (r, t) ->
    (r * r + t * t = x * x + y * y)%R /\
    let d := (Q2R a * PI / 180)%R in
    (x = - (r * sin d) - t * cos d)%R /\ (y = r * cos d - t * sin d)%R.
Proof. exact C81_speed_proof. Qed.
Print Assumptions C81_speed.

(** A turn of 360 degrees changes nothing. *)
Theorem C81_turn : forall (a : Q) (x y : R), wind_components [a]%Q [x] [y] = wind_components [a + 360]%Q [x] [y].
Proof. exact C81_turn_proof. Qed.
Print Assumptions C81_turn.

(** Arrays of different lengths raise ValueError. *)
Theorem C81_exceptions : forall (azimuth : list Q) (u v : list R),
  ((exists out, wind_components azimuth u v = Ok out) <-> List.length u = List.length azimuth /\ List.length v = List.length azimuth) /\
  (forall e, wind_components azimuth u v = Err e -> e = ValueError).
Proof. exact C81_exceptions_proof. Qed.
Print Assumptions C81_exceptions.

(** ** C82: contributions of waves *)

(** Every field is the sum of its parts with 0, 1, 2, ... waves. *)
Theorem C82_parts : forall (x : list R) (j : nat) (v : R), nth_error x j = Some v ->
  Total (map (fun k => WavePart x k j) (seq 0 (List.length x / 2 + 1))) = v.
Proof. exact C82_parts_proof. Qed.
Print Assumptions C82_parts.

(** For an even number of longitudes the contributions are these parts. *)
Theorem C82_contributions : forall xrft (x : list R), x <> [] -> Nat.Even (List.length x) ->
  exists cols, zonal_wave_contributions xrft x None "scipy" = Ok cols /\ List.length cols = List.length x / 2 + 1 /\
    forall k w col, nth_error cols k = Some (w, col) ->
      w = Z.of_nat k /\ col = map (WavePart x k) (seq 0 (List.length x)).
Proof. exact C82_contributions_proof. Qed.
Print Assumptions C82_contributions.

Example C82_contributions_case : [1; 5; 2; 0]%R <> [] /\ Nat.Even (List.length [1; 5; 2; 0]%R).
Proof. split; [discriminate|]. exists 2. reflexivity. Qed.

(** So at every longitude they add up to the field. *)
Theorem C82_sum : forall xrft (x : list R) cols, zonal_wave_contributions xrft x None "scipy" = Ok cols ->
  forall j v, nth_error x j = Some v ->
    exists at_j, Forall2 (fun c y => nth_error (snd c) j = Some y) cols at_j /\ Total at_j = v.
Proof. exact C82_sum_proof. Qed.
Print Assumptions C82_sum.

(** For an odd number of longitudes there are no contributions: ValueError. *)
Theorem C82_odd : forall xrft (x : list R), Nat.Odd (List.length x) -> zonal_wave_contributions xrft x None "scipy" = Err ValueError.
Proof. exact C82_odd_proof. Qed.
Print Assumptions C82_odd.

Example C82_odd_case : Nat.Odd (List.length [1; 5; 2]%R).
Proof. exists 1. reflexivity. Qed.

Theorem C82_total_refuted : ~ forall xrft (x : list R), x <> [] -> exists cols, zonal_wave_contributions xrft x None "scipy" = Ok cols.
Proof. exact C82_total_refuted_proof. Qed.
Print Assumptions C82_total_refuted.

(** Asking for some of the waves should give their contributions; it raises ValueError unless the number of waves asked
    for is that of all waves. *)
Theorem C82_selected : forall xrft (x : list R) (ws : list Z), x <> [] ->
  Forall (fun w => (0 <= w <= Z.of_nat (List.length x / 2))%Z) ws ->
  ((exists cols, zonal_wave_contributions xrft x (Some ws) "scipy" = Ok cols) <->
     List.length x = 2 * (List.length ws - 1)) /\
  (forall e, zonal_wave_contributions xrft x (Some ws) "scipy" = Err e -> e = ValueError).
Proof. exact C82_selected_proof. Qed.
Print Assumptions C82_selected.

Example C82_selected_case : Forall (fun w => (0 <= w <= Z.of_nat (List.length [1; 5; 2; 0]%R / 2))%Z) [1; 2]%Z.
Proof. repeat constructor; cbn; lia. Qed.

Theorem C82_selected_refuted : ~ forall xrft (x : list R) (ws : list Z), x <> [] -> Nat.Even (List.length x) -> ws <> [] ->
  Forall (fun w => (0 <= w <= Z.of_nat (List.length x / 2))%Z) ws ->
  exists cols, zonal_wave_contributions xrft x (Some ws) "scipy" = Ok cols.
Proof. exact C82_selected_refuted_proof. Qed.
Print Assumptions C82_selected_refuted.

(** And if all waves are asked for in another order, the contributions are those of other waves. *)
Theorem C82_order_refuted : ~ forall xrft (x : list R) (ws : list Z) cols, x <> [] -> Nat.Even (List.length x) ->
  zonal_wave_contributions xrft x (Some ws) "scipy" = Ok cols ->
  forall w col, In (w, col) cols -> col = map (WavePart x (Z.to_nat w)) (seq 0 (List.length x)).
Proof. exact C82_order_refuted_proof. Qed.
Print Assumptions C82_order_refuted.

(** Waves that the field cannot have raise KeyError, no data or an unknown package ValueError; with the package xrft, if
    it transforms the data, the result is always AttributeError. *)
Theorem C82_exceptions : forall xrft (x : list R) (ws : list Z) waves pkg,
  (x <> [] -> Exists (fun w => (w < 0 \/ Z.of_nat (List.length x / 2) < w)%Z) ws ->
     zonal_wave_contributions xrft x (Some ws) "scipy" = Err KeyError) /\
  zonal_wave_contributions xrft [] waves "scipy" = Err ValueError /\
  (pkg <> "scipy"%string -> pkg <> "xrft"%string -> zonal_wave_contributions xrft x waves pkg = Err ValueError) /\
  (forall fc, x <> [] -> xrft x = Ok fc -> zonal_wave_contributions xrft x None "xrft" = Err AttributeError) /\
  (forall cols, zonal_wave_contributions xrft x waves "xrft" <> Ok cols).
Proof. exact C82_exceptions_proof. Qed.
Print Assumptions C82_exceptions.

(** ** C83: amplitudes and phases *)

(** Amplitude and phase of a wave describe its part of the field, for fewer than half as many waves as longitudes. *)
Theorem C83_wave : forall xrft (x : list R) waves rows, zonal_wave_ampl_phase xrft x waves false "scipy" = Ok rows ->
  forall k a phi, In (Z.of_nat k, (a, phi)) rows -> 2 * k < List.length x ->
    (0 <= a)%R /\ (- PI < phi <= PI)%R /\
    forall j, WavePart x k j = (a * cos (Turn (List.length x) k j + phi))%R.
Proof. exact C83_wave_proof. Qed.
Print Assumptions C83_wave.

Example C83_wave_case : exists rows a phi, zonal_wave_ampl_phase (fun _ => Err NotModelled) [1; 5; 2]%R (Some [1%Z]) false "scipy" = Ok rows /\
  In (Z.of_nat 1, (a, phi)) rows /\ 2 * 1 < List.length [1; 5; 2]%R.
Proof. exact C83_wave_case_proof. Qed.

(** The wave that changes sign at every step has twice the amplitude of its part. *)
Theorem C83_shortest : forall xrft (x : list R) waves rows, zonal_wave_ampl_phase xrft x waves false "scipy" = Ok rows ->
  forall k a phi, In (Z.of_nat k, (a, phi)) rows -> 0 < k -> 2 * k = List.length x ->
    forall j, (2 * WavePart x k j = a * cos (Turn (List.length x) k j + phi))%R.
Proof. exact C83_shortest_proof. Qed.
Print Assumptions C83_shortest.

Theorem C83_shortest_refuted : ~ forall xrft (x : list R) waves rows, zonal_wave_ampl_phase xrft x waves false "scipy" = Ok rows ->
  forall k a phi, In (Z.of_nat k, (a, phi)) rows ->
    forall j, WavePart x k j = (a * cos (Turn (List.length x) k j + phi))%R.
Proof. exact C83_shortest_refuted_proof. Qed.
Print Assumptions C83_shortest_refuted.

(** A field of one wave has its amplitude at this wave and 0 at all others, and its phase. *)
Theorem C83_pure : forall xrft (n k : nat) (a phi : R) rows, 0 < 2 * k < n -> (0 <= a)%R ->
  zonal_wave_ampl_phase xrft (PureWave n k a phi) None false "scipy" = Ok rows ->
  forall k' a' phi', In (Z.of_nat k', (a', phi')) rows ->
    (k' <> k -> a' = 0%R) /\
    (k' = k -> a' = a /\ ((0 < a)%R -> cos phi' = cos phi /\ sin phi' = sin phi)).
Proof. exact C83_pure_proof. Qed.
Print Assumptions C83_pure.

Example C83_pure_case : exists rows, 0 < 2 * 2 < 5 /\ (0 <= 3)%R /\
  zonal_wave_ampl_phase (fun _ => Err NotModelled) (PureWave 5 2 3 (PI / 3)) None false "scipy" = Ok rows.
Proof. exact C83_pure_case_proof. Qed.

(** Every wave from 0 to half the number of longitudes has its row, or those asked for; phases in degrees are the same
    angles. *)
Theorem C83_rows : forall xrft (x : list R), x <> [] ->
  (exists rows, zonal_wave_ampl_phase xrft x None false "scipy" = Ok rows /\
     map fst rows = map Z.of_nat (seq 0 (List.length x / 2 + 1)) /\
     forall ws, Forall (fun w => (0 <= w <= Z.of_nat (List.length x / 2))%Z) ws ->
       exists some, zonal_wave_ampl_phase xrft x (Some ws) false "scipy" = Ok some /\ map fst some = ws /\
         forall r, In r some -> In r rows) /\
  forall waves pkg rows, zonal_wave_ampl_phase xrft x waves false pkg = Ok rows ->
    zonal_wave_ampl_phase xrft x waves true pkg = Ok (map (fun '(k, (a, phi)) => (k, (a, phi * 180 / PI)%R)) rows).
Proof. exact C83_rows_proof. Qed.
Print Assumptions C83_rows.

Theorem C83_exceptions : forall xrft (x : list R) (ws : list Z) waves deg pkg,
  (x <> [] -> Exists (fun w => (w < 0 \/ Z.of_nat (List.length x / 2) < w)%Z) ws ->
     zonal_wave_ampl_phase xrft x (Some ws) deg "scipy" = Err KeyError) /\
  zonal_wave_ampl_phase xrft [] waves deg "scipy" = Err ValueError /\
  (pkg <> "scipy"%string -> pkg <> "xrft"%string -> zonal_wave_ampl_phase xrft x waves deg pkg = Err ValueError).
Proof. exact C83_exceptions_proof. Qed.
Print Assumptions C83_exceptions.

(** The covariance of two fields can never be computed. *)
Theorem C83_covariance_refuted : ~ exists (x y : list R) waves pkg cov, zonal_wave_covariance x y waves pkg = Ok cov.
Proof. exact C83_covariance_refuted_proof. Qed.
Print Assumptions C83_covariance_refuted.
