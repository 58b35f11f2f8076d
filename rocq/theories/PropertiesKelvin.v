(** The wind power of the Madden-Julian oscillation. *)
From Coq Require Import Reals ZArith List.
From Verif Require Import PyBase KelvinModel KelvinSpec KelvinProofs.
From Coq Require Import List.
Import ListNotations.
Open Scope nat_scope.

(** ** C105: wind power of the Madden-Julian oscillation *)

(** The structure solves the equation of the Kelvin wave by the trapezoidal rule, with the value of the Gaussian curve at the
    place nearest to the equator. *)
Theorem C105_structure : forall erf lat l0 m, lat <> [] -> nth 0 lat 0%R = l0 ->
  let n := length lat in let l1 := last lat 0%R in let norm := (sqrt PI * (erf (l1 / Width) + erf (- (l0 / Width))))%R in
  l0 <> l1 -> Nearest l0 l1 n m -> m + 1 < n -> (0 < norm)%R -> Regular l0 l1 n ->
  exists phi, structure erf lat = Ok (map phi (seq 0 n)) /\ Trapezoid l0 l1 n phi /\
    phi m = (exp (- (Middle l0 l1 n m ^ 2 / 2)) / sqrt norm)%R.
Proof. exact C105_structure_proof. Qed.
Print Assumptions C105_structure.

Example C105_structure_case : Nearest (-10) 10 3 1 /\ Regular (-10) 10 3.
Proof. exact C105_structure_case_proof. Qed.

(** Between latitudes of equal distance from the equator it is the same north and south. *)
Theorem C105_symmetric : forall erf lat out, structure erf lat = Ok out -> last lat 0%R = (- nth 0 lat 0)%R ->
  Regular (nth 0 lat 0%R) (last lat 0%R) (length lat) ->
  forall j, j < length lat -> nth j out 0%R = nth (length lat - 1 - j) out 0%R.
Proof. exact C105_symmetric_proof. Qed.
Print Assumptions C105_symmetric.

(** It is positive where latitude times step is less than two squared widths. *)
Theorem C105_positive : forall erf lat out, structure erf lat = Ok out -> (nth 0 lat 0 < last lat 0)%R ->
  (forall j, j < length lat -> (Rabs (Middle (nth 0 lat 0%R) (last lat 0%R) (length lat) j * Step (nth 0 lat 0%R) (last lat 0%R) (length lat)) < 2)%R) ->
  forall j, j < length lat -> (0 < nth j out 0)%R.
Proof. exact C105_positive_proof. Qed.
Print Assumptions C105_positive.

(** It should be positive everywhere.  Where that product is larger the sign changes from one latitude to the next. *)
Theorem C105_positive_refuted : forall erf lat out j, structure erf lat = Ok out -> (nth 0 lat 0 < last lat 0)%R ->
  Regular (nth 0 lat 0%R) (last lat 0%R) (length lat) -> j + 1 < length lat ->
  (2 < Middle (nth 0 lat 0%R) (last lat 0%R) (length lat) j * Step (nth 0 lat 0%R) (last lat 0%R) (length lat))%R ->
  (nth j out 0 * nth (j + 1) out 0 < 0)%R.
Proof. exact C105_positive_refuted_proof. Qed.
Print Assumptions C105_positive_refuted.

(** With 25 latitudes from 30 degrees south to 30 degrees north this is so from 19.2 degrees on (at least). *)
Example C105_positive_case : (2 < Middle (-30) 30 25 20 * Step (-30) 30 25)%R /\
  (Rabs (Middle (-30) 30 25 15 * Step (-30) 30 25) < 2)%R.
Proof. exact C105_positive_case_proof. Qed.

(** The structure should be that at the latitudes of the data.  With equal steps the place used for a latitude is that
    latitude only in the middle. *)
Theorem C105_latitudes_refuted : forall a s n j, s <> 0%R -> 2 <= n -> j < n ->
  let latitude j := (a + INR j * s)%R in
  Middle (latitude 0) (latitude (n - 1)) n j = (latitude j / Width)%R <-> 2 * j + 1 = n.
Proof. exact C105_latitudes_refuted_proof. Qed.
Print Assumptions C105_latitudes_refuted.

(** Only the first and the last latitude and their number count: those in between do not. *)
Theorem C105_between_refuted : forall erf lat lat', length lat = length lat' -> nth 0 lat 0%R = nth 0 lat' 0%R -> last lat 0%R = last lat' 0%R ->
  structure erf lat = structure erf lat'.
Proof. exact C105_between_refuted_proof. Qed.
Print Assumptions C105_between_refuted.
Example C105_between_case : length [-10; 0; 10]%R = length [-10; 3; 10]%R /\ nth 0 [-10; 0; 10]%R 0%R = nth 0 [-10; 3; 10]%R 0%R /\
  last [-10; 0; 10]%R 0%R = last [-10; 3; 10]%R 0%R /\ [-10; 0; 10]%R <> [-10; 3; 10]%R.
Proof. exact C105_between_case_proof. Qed.

(** The power: the structure times the product of current and stress, NaN if a value is missing. *)
Theorem C105_power : forall erf nt lat nlon u v uflx vflx phik, structure erf lat = Ok phik ->
  OfShape nt (length lat) nlon u -> OfShape nt (length lat) nlon v -> OfShape nt (length lat) nlon uflx -> OfShape nt (length lat) nlon vflx ->
  exists out, calc_wpower_MJO erf nt lat nlon u v uflx vflx = Ok out /\ OfShape nt (length lat) nlon out /\
    forall t j i, t < nt -> j < length lat -> i < nlon ->
      Entry out t j i = match Entry u t j i, Entry v t j i, Entry uflx t j i, Entry vflx t j i with
                        | Some x, Some y, Some p, Some q => Some (nth j phik 0 * (x * p + y * q))%R
                        | _, _, _, _ => None
                        end.
Proof. exact C105_power_proof. Qed.
Print Assumptions C105_power.

Example C105_power_case : OfShape 1 2 1 [[[Some 1%R]; [None]]].
Proof. exact C105_power_case_proof. Qed.

(** No latitudes, a single one, or increasing latitudes that are all south of the equator raise IndexError, fluxes of another
    size ValueError. *)
Theorem C105_exceptions : forall erf nt lat nlon u v uflx vflx,
  let run := calc_wpower_MJO erf nt lat nlon u v uflx vflx in
  (length lat <= 1 -> run = Err IndexError) /\
  ((nth 0 lat 0 < last lat 0)%R -> (last lat 0 <= 0)%R -> run = Err IndexError) /\
  (forall phik, structure erf lat = Ok phik -> OfShape nt (length lat) nlon u -> OfShape nt (length lat) nlon v ->
     ~ (OfShape nt (length lat) nlon uflx /\ OfShape nt (length lat) nlon vflx) -> run = Err ValueError).
Proof. exact C105_exceptions_proof. Qed.
Print Assumptions C105_exceptions.
