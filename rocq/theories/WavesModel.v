(** Means along the axes, waves around circles of latitude and winds of storms:
    metcalcpy/pre_processing/directional_means.py, metcalcpy/pre_processing/waves.py and metcalcpy/process_tcrmw.py.
    Numbers that depend on cosines are reals; NaN is [None] where it is modelled.  The narrower floats of the results
    ([astype], float32) are not modelled. *)
From Coq Require Import Reals Qreals.
From Verif Require Import PyBase ColumnModel BlockModel.
From Coq Require Import List.
Open Scope nat_scope.
Open Scope list_scope.

(** The sum of an array of floats. *)
Definition rsum (l : list R) : R := fold_right Rplus 0%R l.

(** ** Means *)
(** directional_means.py 16-29, [zonal_mean], at one place of the other dimensions: xarray's mean leaves out NaN. *)
Definition zonal_mean (row : list (option Q)) : option Q := nanmean row.
(** directional_means.py 60: [np.cos(np.deg2rad(lat))].  At 90 degrees the float is not 0 but 6.123233995736766e-17;
    elsewhere the cosine is exact here. *)
Definition coslat (lat : Q) : R :=
  if Qeq_bool lat 90 then (6123233995736766 / 10 ^ 32)%R else cos (Q2R lat * PI / 180).
(** directional_means.py 60-62: the latitudes that stay; the limits of the band are 60 and 90. *)
Definition in_band (lat : Q) : bool := Qle_bool 60 lat && Qle_bool lat 90.
(** xarray's weighted mean: NaN is left out of both sums; a sum of weights of 0 gives NaN. *)
Definition weighted_mean (l : list (Q * option R)) : option R :=
  let w := flat_map (fun p => match snd p with Some _ => [coslat (fst p)] | None => [] end) l in
  let wx := flat_map (fun p => match snd p with Some x => [(coslat (fst p) * x)%R] | None => [] end) l in
  if Req_EM_T (rsum w) 0 then None else Some (rsum wx / rsum w)%R.
(** directional_means.py 32-62, [meridional_mean], at one place of the other dimensions; the data are pairs of latitude
    and value. *)
Definition meridional_mean (dat : list (Q * option R)) (lat1 lat2 : Q) : res (option R) :=
  if Qlt_bool lat2 lat1 then Err ValueError
  else if Qeq_bool lat1 lat2 then Err ValueError
  else Ok (weighted_mean (filter (fun p => in_band (fst p)) dat)).

(** ** Waves *)
(** A complex number: real and imaginary part. *)
Definition cplx := (R * R)%type.
(** The angle of wave [k] at place [j] of [n]. *)
Definition turn (n k j : nat) : R := (2 * PI * INR k * INR j / INR n)%R.
(** The sum of the values times a function of their places. *)
Definition against (f : nat -> R) (x : list R) : R :=
  rsum (map (fun p => snd p * f (fst p))%R (combine (seq 0 (length x)) x)).
(** scipy.fft.rfft of one row without NaN: coefficients 0 to n // 2, exact. *)
Definition rfft (x : list R) : res (list cplx) :=
  match x with
  | [] => Err ValueError
  | _ => Ok (map (fun k => (against (fun j => cos (turn (length x) k j)) x, (- against (fun j => sin (turn (length x) k j)) x)%R))
                 (seq 0 (length x / 2 + 1)))
  end.
(** scipy.fft.irfft of one row: without a length given [m] coefficients give [2 * (m - 1)] values; the last coefficient
    counts once like the first, the imaginary parts of both play no role. *)
Definition irfft (c : list cplx) : res (list R) :=
  let n := 2 * (length c - 1) in
  if n =? 0 then Err ValueError
  else Ok (map (fun j => rsum (map (fun p =>
                   let '(k, (re, im)) := p in
                   ((if (k =? 0) || (k =? length c - 1) then 1 else 2) * (re * cos (turn n k j) - im * sin (turn n k j)) / INR n)%R)
                 (combine (seq 0 (length c)) c))) (seq 0 n)).

(** waves.py 58: [fc.sel(lon_wavenum=waves)] for one wave. *)
Definition pick (fc : list (Z * cplx)) (w : Z) : res (Z * cplx) :=
  match find (fun p => Z.eqb (fst p) w) fc with Some p => Ok p | None => Err KeyError end.
(** waves.py 18-114, [zonal_wave_coeffs], for one row of values around a circle of latitude: pairs of wavenumber and
    coefficient.  [xrft] stands for the transform with the package of this name ([_zonal_wave_coeffs_xrft]), which is
    not modelled. *)
Definition zonal_wave_coeffs (xrft : list R -> res (list cplx)) (dat : list R) (waves : option (list Z)) (fftpkg : string)
  : res (list (Z * cplx)) :=
  if String.eqb fftpkg "scipy" || String.eqb fftpkg "xrft" then
    fc <- (if String.eqb fftpkg "scipy" then rfft dat else xrft dat) ;;
    match dat with
    | [] => Err IndexError
    | _ =>
        let fc := combine (map Z.of_nat (seq 0 (length fc))) fc in
        match waves with None => Ok fc | Some ws => mapM (pick fc) ws end
    end
  else Err ValueError.

(** [np.angle]: the angle of a complex number.  Reals have one zero, floats two; for a float -0.0 as the imaginary part
    the result on the negative half-axis is -pi. *)
Definition np_angle (z : cplx) : R :=
  let '(x, y) := z in
  if Rlt_dec 0 x then atan (y / x)
  else if Rlt_dec x 0 then (if Rlt_dec y 0 then (atan (y / x) - PI)%R else (atan (y / x) + PI)%R)
  else if Rlt_dec 0 y then (PI / 2)%R else if Rlt_dec y 0 then (- PI / 2)%R else 0%R.
(** [np.abs] of a complex number. *)
Definition np_abs (z : cplx) : R := sqrt (fst z * fst z + snd z * snd z).
(** waves.py 117-160, [zonal_wave_ampl_phase]: amplitudes and phases with their wavenumbers. *)
Definition zonal_wave_ampl_phase (xrft : list R -> res (list cplx)) (dat : list R) (waves : option (list Z)) (phase_deg : bool)
  (fftpkg : string) : res (list (Z * (R * R))) :=
  fc <- zonal_wave_coeffs xrft dat waves fftpkg ;;
  Ok (map (fun p => let '(k, z) := p in
                    let mult := if Z.eqb k 0 then 1%R else 2%R in
                    (k, ((mult * np_abs z / INR (length dat))%R,
                         if phase_deg then (np_angle z * 180 / PI)%R else np_angle z))) fc).

(** waves.py 163-219, [zonal_wave_contributions]: for each wave its values around the circle (in the program the waves
    are the last axis of one array).  With the package xrft no branch is taken and [recons] is still a list. *)
Definition zonal_wave_contributions (xrft : list R -> res (list cplx)) (dat : list R) (waves : option (list Z)) (fftpkg : string)
  : res (list (Z * list R)) :=
  fc <- zonal_wave_coeffs xrft dat waves fftpkg ;;
  let waves := map fst fc in
  if String.eqb fftpkg "scipy" then
    recons <- mapM (fun k => irfft (map (fun p => if Z.eqb (fst p) k then snd p else (0%R, 0%R)) fc)) waves ;;
    match recons with
    | [] => Err ValueError
    | _ => if forallb (fun col => length col =? length dat) recons then Ok (combine waves recons) else Err ValueError
    end
  else Err AttributeError.

(** waves.py 222-254, [zonal_wave_covariance]: the first line reads the name [dimvar], which is not defined. *)
Definition zonal_wave_covariance (dat1 dat2 : list R) (waves : option (list Z)) (fftpkg : string) : res (list (Z * R)) :=
  Err NameError.

(** ** Winds around a storm *)
(** process_tcrmw.py 44-46: the angle of the radial direction. *)
Definition tc_theta (azimuth : Q) : R :=
  let t := (PI / 180 * Q2R azimuth + PI / 2)%R in
  if Rlt_dec (2 * PI) t then (t - 2 * PI)%R else t.
(** process_tcrmw.py 33-50, [compute_wind_components], for one radius, level and time: arrays along the azimuth.  In
    the data set they have the length of the azimuths. *)
Fixpoint wind_components (azimuth : list Q) (u v : list R) : res (list (R * R)) :=
  match azimuth, u, v with
  | [], [], [] => Ok []
  | a :: azimuth', x :: u', y :: v' =>
      let theta := tc_theta a in
      rest <- wind_components azimuth' u' v' ;;
      Ok ((cos theta * x + sin theta * y, - sin theta * x + cos theta * y)%R :: rest)
  | _, _, _ => Err ValueError
  end.
